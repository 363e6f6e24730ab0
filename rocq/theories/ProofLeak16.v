(** The multi-tree fast core: the simulator. *)
From Coq Require Import ZArith.
From Verif Require Import Base Lib SpecRfc ModelUtils ModelParams ModelHash ModelWots ModelCommons ModelCore ModelCoreFast ModelXmss
  ProofUtils ProofHash ProofWots ProofCommons ProofTree ProofCore SpecParams SpecApi ProofParams ProofApi ProofHistory SpecFast ModelLeak ModelLeakFast SpecLeak
  ProofLeak ProofLeak2 ProofLeak3 ProofLeak5 ProofLeak6 ProofLeak7 ProofLeak8 ProofLeak9 ProofLeak10 ProofLeak11 ProofLeak12 ProofLeak15 ProofFast3 ProofMain ProofMt7.

Section Mt.
Context {E : Env}.
Hypothesis HE : env_ok E.
Variable r : row.
Hypothesis Hr : In r (rows true).
Notation P := (row_sp r).
Notation n := (r_n r).

Definition sim_mt_keypair (sk pk s : bytes) : list event :=
  refill (map hide (trace (fast_keypair_seen true (repeat 0%N (4 + pk_size r)) sk (r_oid r) (fun _ => 0%N)))) (map (chain_trace P) (lengths_kp r pk s)).
Definition sim_mt_life (sk pk : bytes) (l : list (bytes * nat * nat)) : list (list event) :=
  match keypair true fast_core (repeat 0%N (4 + pk_size r)) sk (r_oid r) (fun _ => 0%N) with
  | Ok (_, _, k) => map (fun q => refill (fst q) (snd q))
      (combine (map (map hide) (watch (fast_sign_seen true) k (map (blank r) l)))
        (map (fun q => map (chain_trace P) (lengths_mt r pk (fst q) (snd q))) (next_to (map (fun q => fst (fst q)) l))))
  | _ => []
  end.

Lemma run_shapes' mt cs : forall k k' os, sign_run mt fast_core k cs = Ok (k', os) -> length os = length cs.
Proof.
  induction cs as [|c cs IH]; intros k k' os; cbn [sign_run]; [intros H; now injection H as _ <-|].
  destruct (sign mt fast_core k (c_sm c) (c_smlen c) (c_m c)) as [o| |]; try discriminate. cbn [bind].
  destruct (sign_run mt fast_core (so_sk o) cs) as [[k1 os1]| |] eqn:Er; try discriminate. cbn [bind]. intros H. injection H as _ <-. cbn [length]. f_equal. now apply (IH _ _ _ Er).
Qed.
Lemma nth_combine {A B} (l : list A) (l' : list B) t x y : nth_error l t = Some x -> nth_error l' t = Some y -> nth_error (combine l l') t = Some (x, y).
Proof. revert l l'. induction t as [|t IH]; intros [|a l] [|b l'] H1 H2; try discriminate; cbn in *; [congruence|auto]. Qed.

Lemma watch_live a b c d : length a = n -> length b = n -> length c = n -> length d = n ->
  forall cs i ext, goodm r a d i ext -> (i + N.of_nat (length cs) < fast_limit r)%N -> Forall (call_ok r) cs ->
  length (watch (fast_sign_seen true) (secret_key r i a b c d ++ ext) cs) = length cs.
Proof.
  intros Ha Hb Hc Hd. induction cs as [|q cs IH]; intros i ext HG Hi Hcs; [reflexivity|].
  inversion Hcs as [|q' cs' Hq Hqs]; subst. cbn [length] in Hi. cbn [watch].
  destruct (fstep_live true r Hr a b c d (goodm r a d) (fast_limit r) (mstep HE r Hr a b c d Ha Hb Hc Hd) i ext q HG ltac:(lia) Hq) as (ext' & HG' & Hs).
  pose proof (seen_fast_sign true (secret_key r i a b c d ++ ext) (c_sm q) (c_smlen q) (c_m q)) as Ho. rewrite Hs in Ho. rewrite Ho. cbn [so_sk length].
  f_equal. apply IH; [exact HG'|lia|exact Hqs].
Qed.

Lemma sim_mt_keypair_ok pk sk u rc pk1 sk1 c cs sk2 o os : length pk = 4 + pk_size r -> length sk = 4 + fast_size r -> bytes_ok sk ->
  keypair true fast_core pk sk (r_oid r) u = Ok (rc, pk1, sk1) ->
  (N.of_nat (length (c :: cs)) < fast_limit r)%N -> Forall (call_ok r) (c :: cs) ->
  sign_run true fast_core sk1 (c :: cs) = Ok (sk2, o :: os) ->
  trace (fast_keypair_seen true pk sk (r_oid r) u) = sim_mt_keypair (shown (fast_mask r) sk) pk1 (signed_message o).
Proof.
  intros Hp Hs Hb Hk Hlim Hok Hrun. pose proof (fast_mask_length true r Hr) as Hm.
  assert (Ha : agree (fast_mask r) sk (shown (fast_mask r) sk)) by (apply shown_agree; lia).
  destruct (mkey HE r Hr pk sk u Hp Hs Hb) as (ext & HG & Hk'). rewrite Hk in Hk'. apply ok_3 in Hk'. destruct Hk' as (-> & -> & ->).
  pose proof (mt_row_kp_chains HE r Hr pk sk u Hp Hs Hb) as Hc. cbv zeta in Hc.
  set (a := map u (seq 0 n)) in *. set (b := map u (seq n n)) in *. set (d := map u (seq (2 * n) n)) in *.
  assert (La : length a = n) by (unfold a; now rewrite map_length, seq_length). assert (Lb : length b = n) by (unfold b; now rewrite map_length, seq_length).
  assert (Ld : length d = n) by (unfold d; now rewrite map_length, seq_length).
  pose proof (root_facts HE true r a d Hr) as [Lc _]. set (rt := mt_root P a d) in *.
  destruct (mt_life_chains HE r Hr a b rt d La Lb Lc Ld (c :: cs) 0%N ext sk2 (o :: os) HG ltac:(lia) Hok Hrun) as (_ & G & _).
  destruct (G c cs eq_refl) as (os' & Eo). cbn [map] in Eo. assert (Es : signed_message o = mt_sign P a b rt d 0 (c_m c) ++ c_m c) by congruence. clear Eo G.
  unfold sim_mt_keypair. pose proof (fast_kp_pair HE true r Hr pk (repeat 0%N (4 + pk_size r)) sk (shown (fast_mask r) sk) u (fun _ => 0%N)) as [H _].
  { unfold el. now rewrite repeat_length. } { exact (ag_skip 4 _ _ _ Ha). } { eapply ag_el. exact Ha. }
  rewrite <- H. replace (map (chain_trace P) (lengths_kp r _ _)) with (chains (trace (fast_keypair_seen true pk sk (r_oid r) u))); [symmetry; apply refill_id|].
  rewrite Hc. unfold lengths_kp. rewrite map_concat_map. f_equal. apply map_ext_in. intros i Hi. apply in_seq in Hi. f_equal.
  rewrite Es. pose proof (mr_lim r Hr). rewrite (layer_of HE r Hr) by (assumption || lia). cbn [layer_msg]. unfold tree_of. rewrite N.div_0_l by (apply N.pow_nonzero; discriminate). reflexivity.
Qed.

Lemma sim_mt_life_ok pk sk u rc pk1 sk1 cs sk2 os : length pk = 4 + pk_size r -> length sk = 4 + fast_size r -> bytes_ok sk ->
  keypair true fast_core pk sk (r_oid r) u = Ok (rc, pk1, sk1) ->
  (N.of_nat (length cs) < fast_limit r)%N -> Forall (call_ok r) cs ->
  sign_run true fast_core sk1 cs = Ok (sk2, os) ->
  forall t, t < length cs -> S t < length cs \/ (N.of_nat (S t) mod 2 ^ N.of_nat (sp_th P) <> 0)%N ->
  exists w, nth_error (watch (fast_sign_seen true) sk1 cs) t = Some w /\
  nth_error (sim_mt_life (shown (fast_mask r) sk) pk1 (map pub_call (combine cs os))) t = Some w.
Proof.
  intros Hp Hs Hb Hk Hlim Hok Hrun t Ht Ht'. pose proof (fast_mask_length true r Hr) as Hm.
  assert (Ha : agree (fast_mask r) sk (shown (fast_mask r) sk)) by (apply shown_agree; lia).
  destruct (mkey HE r Hr pk sk u Hp Hs Hb) as (ext & HG & Hk'). rewrite Hk in Hk'. apply ok_3 in Hk'. destruct Hk' as (-> & -> & ->).
  destruct (mkey HE r Hr (repeat 0%N (4 + pk_size r)) (shown (fast_mask r) sk) (fun _ => 0%N)) as (ext0 & _ & Hk0).
  { apply repeat_length. } { rewrite shown_length; lia. } { now apply shown_bytes. }
  unfold sim_mt_life. rewrite Hk0.
  pose proof (fast_kp_pair HE true r Hr pk (repeat 0%N (4 + pk_size r)) sk (shown (fast_mask r) sk) u (fun _ => 0%N)) as [_ H].
  { unfold el. now rewrite repeat_length. } { exact (ag_skip 4 _ _ _ Ha). } { eapply ag_el. exact Ha. }
  rewrite !seen_fast_keypair, Hk, Hk0 in H. destruct H as [_ H]; cbn [fst snd] in H.
  pose proof (run_shapes' true _ _ _ _ Hrun) as Hlen.
  set (a := map u (seq 0 n)) in *. set (b := map u (seq n n)) in *. set (d := map u (seq (2 * n) n)) in *.
  assert (La : length a = n) by (unfold a; now rewrite map_length, seq_length). assert (Lb : length b = n) by (unfold b; now rewrite map_length, seq_length).
  assert (Ld : length d = n) by (unfold d; now rewrite map_length, seq_length).
  pose proof (root_facts HE true r a d Hr) as [Lc _]. set (rt := mt_root P a d) in *.
  destruct (mt_life_chains HE r Hr a b rt d La Lb Lc Ld cs 0%N ext sk2 os HG ltac:(lia) Hok Hrun) as (G2 & _ & G1).
  pose proof (watch_live a b rt d La Lb Lc Ld cs 0%N ext HG ltac:(lia) Hok) as Hwl.
  destruct (nth_error (watch (fast_sign_seen true) (secret_key r 0 a b rt d ++ ext) cs) t) as [w|] eqn:Ew; [|apply nth_error_None in Ew; lia].
  exists w. split; [reflexivity|].
  assert (Hh : map (map hide) (watch (fast_sign_seen true) (secret_key r 0 a b rt d ++ ext) cs) =
    map (map hide) (watch (fast_sign_seen true) (secret_key r 0 (map (fun _ => 0%N) (seq 0 n)) (map (fun _ => 0%N) (seq n n)) (mt_root P (map (fun _ => 0%N) (seq 0 n)) (map (fun _ => 0%N) (seq (2 * n) n))) (map (fun _ => 0%N) (seq (2 * n) n)) ++ ext0) (map (blank r) (map pub_call (combine cs os))))).
  { eapply (watch_pair r); [exact (fast_pair HE true r Hr)| |exact H].
    clear -G2. induction G2 as [|q o cs os Hq G2 IH]; constructor; [|exact IH].
    cbn [pub_call blank fst snd]. unfold same_shape. cbn [c_m c_sm c_smlen]. rewrite !repeat_length. repeat split. lia. }
  rewrite <- Hh.
  assert (Em : map (fun q => fst (fst q)) (map pub_call (combine cs os)) = map signed_message os).
  { clear -Hlen. revert os Hlen. induction cs as [|q cs IH]; intros [|o os] Hlen; try discriminate; [reflexivity|]. cbn [combine map pub_call fst snd]. f_equal. apply IH. now injection Hlen. }
  rewrite Em. specialize (G1 t w Ew). rewrite N.add_0_l in G1. specialize (G1 Ht').
  match goal with |- nth_error (map _ (combine ?l1 ?l2)) t = _ => pose proof (nth_combine l1 l2 t (map hide w) (chains w)) as Hn end.
  specialize (Hn (map_nth_error (map hide) t _ Ew) G1).
  rewrite (map_nth_error _ t _ Hn). cbn [fst snd]. now rewrite refill_id.
Qed.
End Mt.
