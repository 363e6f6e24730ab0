(** The single-tree fast core, whole life of a key: every trace is determined by public data. *)
From Verif Require Import Base Lib SpecRfc ModelUtils ModelParams ModelHash ModelWots ModelCommons ModelCore ModelCoreFast ModelXmss
  ProofUtils ProofHash ProofWots ProofCommons ProofTree ProofCore SpecParams SpecApi ProofParams ProofApi ProofHistory SpecFast ModelLeak ModelLeakFast SpecLeak
  ProofLeak ProofLeak2 ProofLeak3 ProofLeak5 ProofLeak6 ProofLeak7 ProofLeak8 ProofLeak9 ProofLeak10 ProofLeak11 ProofFast3 ProofMain.

(** ** The public bytes of a buffer *)
Lemma shown_agree m : forall b, length m = length b -> agree m b (shown m b).
Proof. induction m as [|[|] m IH]; intros [|x b] H; try discriminate; cbn [shown]; constructor; apply IH; cbn [length] in H; lia. Qed.
Lemma shown_length m : forall b, length m = length b -> length (shown m b) = length b.
Proof. induction m as [|[|] m IH]; intros [|x b] H; try discriminate; cbn [shown length] in *; auto. Qed.
Lemma shown_bytes m : forall b, bytes_ok b -> bytes_ok (shown m b).
Proof. induction m as [|[|] m IH]; intros [|x b] H; try constructor; inversion H; subst; cbn [shown]; try (apply IH; assumption); auto. reflexivity. Qed.

Lemma ok_3 (x x' : Z) (y y' z z' : bytes) : Ok (x, y, z) = Ok (x', y', z') -> x = x' /\ y = y' /\ z = z'.
Proof. intros H. injection H. auto. Qed.

(** ** Putting the chains back into several traces *)
Lemma combine_maps {A B C} (f : A -> B) (g : A -> C) l : combine (map f l) (map g l) = map (fun x => (f x, g x)) l.
Proof. induction l as [|x l IH]; [reflexivity|]. cbn. now rewrite IH. Qed.
Lemma refill_all W H C : map (map hide) W = H -> map chains W = C -> W = map (fun q => refill (fst q) (snd q)) (combine H C).
Proof.
  intros <- <-. rewrite combine_maps, map_map. rewrite <- (map_id W) at 1. apply map_ext. intros t. cbn [fst snd]. symmetry. apply refill_id.
Qed.

Lemma fast_mask_length {E : Env} mt r : In r (rows mt) -> length (fast_mask r) = 4 + fast_size r.
Proof.
  assert (H : forall b, forallb (fun r => length (fast_mask r) =? 4 + fast_size r) (rows b) = true) by (intros [|]; vm_compute; reflexivity).
  specialize (H mt). rewrite forallb_forall in H. intros Hr. apply Nat.eqb_eq. now apply H.
Qed.

Section Xmss.
Context {E : Env}.
Hypothesis HE : env_ok E.
Variable r : row.
Hypothesis Hr : In r (rows false).
Notation p := (row_params r (sk_fast r)).
Notation P := (row_sp r).
Notation n := (r_n r).
Notation ib := (idx_size r).

Lemma fast_row_chains idx a b rt seed ext sm smlen m o : length a = n -> length b = n -> length rt = n -> length seed = n ->
  (idx + 1 < 2 ^ N.of_nat (r_h r))%N ->
  outcome (fast_sign_seen false (secret_key r idx a b rt seed ++ ext) sm smlen m) = Ok o ->
  chains (trace (fast_sign_seen false (secret_key r idx a b rt seed ++ ext) sm smlen m)) =
  map (chain_trace P) (chain_lengths_public P rt seed (mt_sign P a b rt seed idx m) m).
Proof.
  intros Ha Hb Hc Hd Hi Ho. pose proof (xr_facts r Hr) as [Hd1 Hth].
  assert (Hib : index_bytes p = 4) by (apply (f_xmss_ib false r Hr); reflexivity).
  assert (Hib' : ib = 4) by (rewrite <- (fp_ib r); exact Hib).
  assert (Hi32 : (idx < 2 ^ 32)%N).
  { unfold sp_th in Hth. cbn [sp_h sp_d row_sp] in Hth. rewrite Hd1, Nat.div_1_r in Hth. 
    assert ((2 ^ N.of_nat (r_h r) <= 2 ^ 20)%N) by (apply N.pow_le_mono_r; lia). change (2 ^ 32)%N with (4096 * 2 ^ 20)%N. lia. }
  rewrite <- (layout_ext r) in Ho |- *. rewrite Hib' in Ho |- *. set (k := sk_layout (toByte idx 4) a b rt seed ext) in *.
  unfold fast_sign_seen, sign_wrapper_l in Ho |- *.
  pose proof (parse_accept_fast false r uninit_params Hr) as Hpo. unfold ProofParams.parse_oid in Hpo.
  rewrite (bind_oc (silent _) _ _ (row_oid_bytes false r k Hr)) in Ho. eapply ch_ok; [apply (row_oid_bytes false r _ Hr)|cbv beta in Ho |- *].
  rewrite (bind_oc (silent _) _ _ Hpo) in Ho. eapply ch_ok; [exact Hpo|cbv beta iota in Ho |- *].
  change XMSS_OID_LEN with 4 in *. rewrite (skipn_app_len (toByte (r_oid r) 4)) in Ho |- * by (now rewrite toByte_length).
  destruct (outcome (fast_xmss_core_sign_l p k sm smlen m)) as [o'| |] eqn:Eo; unfold lbind at 1 in Ho; cbn [outcome] in Ho; rewrite Eo in Ho; try discriminate.
  pose proof (fast_chains p (row_hash r) (fp_ok false r Hr) (fp_hash HE false r Hr) a b rt seed ext idx sm m smlen o' Hib) as H1.
  pose proof (lengths_public p (row_hash r) (fp_ok false r Hr) (fp_hash HE false r Hr) a b rt seed idx m) as H2.
  cbv zeta in H2. rewrite row_n, fp_h, sp_of_row in H1, H2. rewrite H2 by (assumption || lia).
  rewrite row_dd, Hd1. cbn [seq map concat layer_msg]. rewrite app_nil_r.
  rewrite <- H1 by assumption. rewrite <- (app_nil_r (chains (trace (fast_xmss_core_sign_l _ _ _ _ _)))).
  eapply ch_bind; [exact Eo|reflexivity|reflexivity].
Qed.

Notation of_pub pk sm := (map (chain_trace P) (chain_lengths_public P (firstn n (skipn 4 pk)) (skipn (4 + n) pk) (firstn (sig_size r) sm) (skipn (sig_size r) sm))).
Lemma of_public a b c d i m : length a = n -> length b = n -> length c = n -> length d = n ->
  of_pub (public_key r c d) (mt_sign P a b c d i m ++ m) = map (chain_trace P) (chain_lengths_public P c d (mt_sign P a b c d i m) m).
Proof.
  intros Ha Hb Hc Hd. pose proof (sig_len HE false r Hr a b c d i m Ha Hb Hc Hd) as Hs.
  unfold public_key. rewrite (skipn_app_len (toByte (r_oid r) 4)) by (now rewrite toByte_length). rewrite (firstn_app_len c) by lia.
  rewrite (app_assoc _ c d), (skipn_app_len (toByte (r_oid r) 4 ++ c)) by (rewrite app_length, toByte_length; lia).
  rewrite (firstn_app_len (mt_sign P a b c d i m)), (skipn_app_len (mt_sign P a b c d i m)) by lia. reflexivity.
Qed.
Lemma fast_life_chains a b c d : length a = n -> length b = n -> length c = n -> length d = n ->
  forall cs i ext sk' os, good1 r a d i ext -> (i + N.of_nat (length cs) < 2 ^ N.of_nat (r_h r))%N -> Forall (call_ok r) cs ->
  sign_run false fast_core (secret_key r i a b c d ++ ext) cs = Ok (sk', os) ->
  map chains (watch (fast_sign_seen false) (secret_key r i a b c d ++ ext) cs) =
  map (fun q => of_pub (public_key r c d) (signed_message (snd q))) (combine cs os) /\
  Forall2 (fun q o => length (signed_message o) = sig_size r + length (c_m q)) cs os.
Proof.
  intros Ha Hb Hc Hd. induction cs as [|q cs IH]; intros i ext sk' os HG Hi Hcs Hrun; [injection Hrun as _ <-; split; [reflexivity|constructor]|].
  inversion Hcs as [|q' cs' Hq Hqs]; subst. cbn [length] in Hi. cbn [sign_run] in Hrun. cbn [watch].
  destruct (fstep_live false r Hr a b c d (good1 r a d) (2 ^ N.of_nat (r_h r)) (xstep HE r Hr a b c d Ha Hb Hc Hd) i ext q HG ltac:(lia) Hq) as (ext' & HG' & Hs).
  pose proof (seen_fast_sign false (secret_key r i a b c d ++ ext) (c_sm q) (c_smlen q) (c_m q)) as Ho. rewrite Hs in Ho, Hrun. rewrite Ho. cbn [bind so_sk] in Hrun |- *.
  destruct (sign_run false fast_core (secret_key r (i + 1) a b c d ++ ext') cs) as [[sk1 os1]| |] eqn:Er; try discriminate. cbn [bind] in Hrun. injection Hrun as <- <-.
  destruct (IH (i + 1)%N ext' sk1 os1 HG' ltac:(lia) Hqs Er) as [IH1 IH2].
  pose proof (sig_len HE false r Hr a b c d i (c_m q) Ha Hb Hc Hd) as Hsl.
  split.
  2:{ constructor; [|exact IH2]. unfold signed_message. cbn [so_sm so_smlen]. rewrite firstn_length, !app_length, skipn_length. unfold call_ok in Hq. lia. }
  cbn [combine map fst snd]. f_equal; [|exact IH1].
  rewrite (fast_row_chains i a b c d ext (c_sm q) (c_smlen q) (c_m q) _ Ha Hb Hc Hd ltac:(lia) Ho).
  unfold signed_message. cbn [so_sm so_smlen].
  rewrite (app_assoc _ (c_m q)), (firstn_app_len (mt_sign P a b c d i (c_m q) ++ c_m q)) by (rewrite app_length; lia).
  symmetry. now apply of_public.
Qed.

(** ** The simulator *)
Definition blank (q : bytes * nat * nat) : call := let '(sm, room, smlen) := q in mkCall (repeat 0%N (length sm - sig_size r)) (repeat 0%N room) smlen.
Definition pub_call (q : call * sign_out) : bytes * nat * nat := (signed_message (snd q), length (c_sm (fst q)), c_smlen (fst q)).
Definition sim_keypair (sk : bytes) : list event := map hide (trace (fast_keypair_seen false (repeat 0%N (4 + pk_size r)) sk (r_oid r) (fun _ => 0%N))).
Definition sim_life (sk pk : bytes) (l : list (bytes * nat * nat)) : list (list event) :=
  match keypair false fast_core (repeat 0%N (4 + pk_size r)) sk (r_oid r) (fun _ => 0%N) with
  | Ok (_, _, k) => map (fun q => refill (fst q) (snd q))
      (combine (map (map hide) (watch (fast_sign_seen false) k (map blank l))) (map (fun q => of_pub pk (fst (fst q))) l))
  | _ => []
  end.
Lemma nc_fast_keypair pk sk oid u : nc (fast_keypair_seen false pk sk oid u).
Proof.
  unfold fast_keypair_seen, keypair_wrapper_l. apply nc_bind; [reflexivity|]. intros [q|]; [|reflexivity]. ncs. apply nc_keypair.
Qed.

Lemma run_shapes cs : forall k k' os, sign_run false fast_core k cs = Ok (k', os) -> length os = length cs.
Proof.
  induction cs as [|c cs IH]; intros k k' os; cbn [sign_run]; [intros H; now injection H as _ <-|].
  destruct (sign false fast_core k (c_sm c) (c_smlen c) (c_m c)) as [o| |]; try discriminate. cbn [bind].
  destruct (sign_run false fast_core (so_sk o) cs) as [[k1 os1]| |] eqn:Er; try discriminate. cbn [bind]. intros H. injection H as _ <-. cbn [length]. f_equal. now apply (IH _ _ _ Er).
Qed.

Lemma sim_keypair_ok pk sk u : length pk = 4 + pk_size r -> length sk = 4 + fast_size r ->
  trace (fast_keypair_seen false pk sk (r_oid r) u) = sim_keypair (shown (fast_mask r) sk).
Proof.
  intros Hp Hs. pose proof (fast_mask_length false r Hr) as Hm.
  assert (Ha : agree (fast_mask r) sk (shown (fast_mask r) sk)) by (apply shown_agree; lia).
  unfold sim_keypair. pose proof (fast_kp_pair HE false r Hr pk (repeat 0%N (4 + pk_size r)) sk (shown (fast_mask r) sk) u (fun _ => 0%N)) as [H _].
  { unfold el. now rewrite repeat_length. } { exact (ag_skip 4 _ _ _ Ha). } { eapply ag_el. exact Ha. }
  rewrite <- H. rewrite <- (refill_id (trace _)) at 1. rewrite (nc_fast_keypair pk sk (r_oid r) u).
  generalize (nc_fast_keypair pk sk (r_oid r) u). unfold nc. clear. induction (trace (fast_keypair_seen false pk sk (r_oid r) u)) as [|e t IH]; [reflexivity|].
  destruct e; cbn; intros H; try discriminate; f_equal; now apply IH.
Qed.

Lemma sim_life_ok pk sk u rc pk1 sk1 cs sk2 os : length pk = 4 + pk_size r -> length sk = 4 + fast_size r -> bytes_ok sk ->
  keypair false fast_core pk sk (r_oid r) u = Ok (rc, pk1, sk1) ->
  (N.of_nat (length cs) < 2 ^ N.of_nat (r_h r))%N -> Forall (call_ok r) cs ->
  sign_run false fast_core sk1 cs = Ok (sk2, os) ->
  watch (fast_sign_seen false) sk1 cs = sim_life (shown (fast_mask r) sk) pk1 (map pub_call (combine cs os)).
Proof.
  intros Hp Hs Hb Hk Hlim Hok Hrun. pose proof (fast_mask_length false r Hr) as Hm.
  assert (Ha : agree (fast_mask r) sk (shown (fast_mask r) sk)) by (apply shown_agree; lia).
  destruct (xkeypair HE r Hr pk sk u Hp Hs Hb) as (ext & HG & _ & _ & Hk'). rewrite Hk in Hk'. apply ok_3 in Hk'. destruct Hk' as (-> & -> & ->).
  destruct (xkeypair HE r Hr (repeat 0%N (4 + pk_size r)) (shown (fast_mask r) sk) (fun _ => 0%N)) as (ext0 & _ & _ & _ & Hk0).
  { apply repeat_length. } { rewrite shown_length; lia. } { now apply shown_bytes. }
  unfold sim_life. rewrite Hk0.
  pose proof (fast_kp_pair HE false r Hr pk (repeat 0%N (4 + pk_size r)) sk (shown (fast_mask r) sk) u (fun _ => 0%N)) as [_ H].
  { unfold el. now rewrite repeat_length. } { exact (ag_skip 4 _ _ _ Ha). } { eapply ag_el. exact Ha. }
  rewrite !seen_fast_keypair, Hk, Hk0 in H. destruct H as [_ H]; cbn [fst snd] in H.
  pose proof (run_shapes _ _ _ _ Hrun) as Hlen.
  set (a := map u (seq 0 n)) in *. set (b := map u (seq n n)) in *. set (d := map u (seq (2 * n) n)) in *.
  assert (La : length a = n) by (unfold a; now rewrite map_length, seq_length). assert (Lb : length b = n) by (unfold b; now rewrite map_length, seq_length).
  assert (Ld : length d = n) by (unfold d; now rewrite map_length, seq_length).
  pose proof (root_facts HE false r a d Hr) as [Lc _]. set (c := mt_root P a d) in *.
  destruct (fast_life_chains a b c d La Lb Lc Ld cs 0%N ext sk2 os HG ltac:(lia) Hok Hrun) as [G1 G2].
  apply refill_all.
  - eapply (watch_pair r); [exact (fast_pair HE false r Hr)| |exact H].
    clear -G2. induction G2 as [|q o cs os Hq G2 IH]; constructor; [|exact IH].
    cbn [pub_call blank fst snd]. unfold same_shape. cbn [c_m c_sm c_smlen]. rewrite !repeat_length. repeat split. lia.
  - rewrite G1. rewrite map_map. reflexivity.
Qed.
End Xmss.
