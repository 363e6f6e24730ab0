(** C74: what an observer of branches, memory addresses and hash-input lengths learns. *)
From Verif Require Import Base Lib ModelUtils ModelParams ModelHash ModelWots ModelCommons ModelCore ModelCoreFast ModelXmss ModelLeak ModelLeakFast.
From Verif Require Import SpecRfc SpecParams SpecApi SpecFast SpecLeak ProofLeak ProofLeak2 ProofLeak3 ProofLeak5 ProofLeak7 ProofLeak8 ProofLeak9 ProofLeak10 ProofLeak11 ProofLeak12 ProofLeak16 ProofLeak17 ProofUtils ProofCommons ProofTree ProofCore ProofHistory ProofMain PropApi PropFast PropMt.

(** The observed programs are the programs: forgetting what was seen leaves the calls of the API. *)
Theorem C74_observing_changes_nothing : forall (E : Env) (mt : bool) pk sk oid rnd sm smlen m,
  outcome (ref_keypair_seen mt pk sk oid rnd) = keypair mt ref_core pk sk oid rnd /\
  outcome (ref_sign_seen mt sk sm smlen m) = sign mt ref_core sk sm smlen m /\
  outcome (fast_keypair_seen mt pk sk oid rnd) = keypair mt fast_core pk sk oid rnd /\
  outcome (fast_sign_seen mt sk sm smlen m) = sign mt fast_core sk sm smlen m.
Proof. intros. exact (conj (seen_keypair _ _ _ _ _) (conj (seen_sign _ _ _ _ _) (conj (seen_fast_keypair _ _ _ _ _) (seen_fast_sign _ _ _ _ _)))). Qed.
Print Assumptions C74_observing_changes_nothing.

(** Key generation with the reference core: the complete trace is the same whatever the random
    bytes are and whatever was in the buffers. *)
Theorem C74_reference_keypair_constant_time : forall (E : Env), env_ok E -> forall (mt : bool) (r : row), In r (rows mt) ->
  forall pk pk' sk sk' rnd rnd', length pk = length pk' -> length sk = 4 + sk_size r -> length sk' = 4 + sk_size r ->
  trace (ref_keypair_seen mt pk sk (r_oid r) rnd) = trace (ref_keypair_seen mt pk' sk' (r_oid r) rnd').
Proof.
  intros E HE mt r Hr pk pk' sk sk' u u' Hp Hk Hk'. destruct (ref_kp_pair HE mt r Hr (fun e => e) pk pk' sk sk' u u' Hp Hk Hk') as [H _].
  now rewrite !map_id in H.
Qed.
Print Assumptions C74_reference_keypair_constant_time.

(** One sign call with the reference core: two keys with the same OID and index, all their secrets
    different, two messages of the same length: the traces differ at most inside the chains of
    the one-time signatures. *)
Theorem C74_reference_sign_constant_time : forall (E : Env), env_ok E -> forall (mt : bool) (r : row), In r (rows mt) ->
  forall sk sk' sm sm' smlen m m', firstn 4 sk = toByte (r_oid r) 4 -> agree (ref_mask r) sk sk' ->
  length sm = length sm' -> length m = length m' ->
  map hide (trace (ref_sign_seen mt sk sm smlen m)) = map hide (trace (ref_sign_seen mt sk' sm' smlen m')).
Proof.
  intros E HE mt r Hr sk sk' sm sm' smlen m m' H4 Hk Hs Hm. exact (proj1 (ref_pair HE mt r Hr sk sk' sm sm' smlen m m' Hs Hm (conj Hk H4))).
Qed.
Print Assumptions C74_reference_sign_constant_time.

(** The same for the fast core: two keys that agree on OID, index and the counters of the
    traversal; every other byte (seeds, nodes, stored one-time signatures) may differ. *)
Theorem C74_fast_sign_constant_time : forall (E : Env), env_ok E -> forall (mt : bool) (r : row), In r (rows mt) ->
  forall sk sk' sm sm' smlen m m', firstn 4 sk = toByte (r_oid r) 4 -> agree (fast_mask r) sk sk' ->
  length sm = length sm' -> length m = length m' ->
  map hide (trace (fast_sign_seen mt sk sm smlen m)) = map hide (trace (fast_sign_seen mt sk' sm' smlen m')).
Proof.
  intros E HE mt r Hr sk sk' sm sm' smlen m m' H4 Hk Hs Hm. exact (proj1 (fast_pair HE mt r Hr sk sk' sm sm' smlen m m' Hs Hm (conj Hk H4))).
Qed.
Print Assumptions C74_fast_sign_constant_time.

(** The whole life of a key of the reference core: key generation from any random bytes, then any
    number of sign calls.  Two lives with calls of the same shape look the same. *)
Theorem C74_reference_life : forall (E : Env), env_ok E -> forall (mt : bool) (r : row), In r (rows mt) ->
  forall pk pk' sk sk' rnd rnd' cs cs', length pk = length pk' -> length sk = 4 + sk_size r -> length sk' = 4 + sk_size r ->
  Forall2 same_shape cs cs' ->
  trace (ref_keypair_seen mt pk sk (r_oid r) rnd) = trace (ref_keypair_seen mt pk' sk' (r_oid r) rnd') /\
  forall rc p k rc' p' k',
    keypair mt ref_core pk sk (r_oid r) rnd = Ok (rc, p, k) -> keypair mt ref_core pk' sk' (r_oid r) rnd' = Ok (rc', p', k') ->
    map (map hide) (watch (ref_sign_seen mt) k cs) = map (map hide) (watch (ref_sign_seen mt) k' cs').
Proof.
  intros E HE mt r Hr pk pk' sk sk' u u' cs cs' Hp Hk Hk' Hcs. split; [now apply C74_reference_keypair_constant_time|].
  intros rc p k rc' p' k' H1 H2. destruct (ref_kp_pair HE mt r Hr (fun e => e) pk pk' sk sk' u u' Hp Hk Hk') as [_ H].
  rewrite !seen_keypair, H1, H2 in H. destruct H as [_ H]; cbn [fst snd] in H. eapply watch_pair; [|exact Hcs|exact H]. intros. now apply ref_pair.
Qed.
Print Assumptions C74_reference_life.

(** What [map hide] hides is public in the reference core: the chains of a signature run for the
    lengths the verifier computes from the public key, the signature and the message. *)
Theorem C74_reference_chain_lengths : forall (E : Env), env_ok E -> forall (mt : bool) (r : row), In r (rows mt) ->
  forall idx sk_seed sk_prf rt seed sm smlen m o, length sk_seed = r_n r -> length sk_prf = r_n r -> length rt = r_n r -> length seed = r_n r ->
  (idx + 1 < 2 ^ N.of_nat (r_h r))%N -> sig_size r + length m <= length sm ->
  let sk := secret_key r idx sk_seed sk_prf rt seed in
  sign mt ref_core sk sm smlen m = Ok o ->
  chains (trace (ref_sign_seen mt sk sm smlen m)) =
  map (chain_trace (row_sp r)) (chain_lengths_public (row_sp r) rt seed (firstn (sig_size r) (so_sm o)) m).
Proof.
  intros E HE mt r Hr idx a b rt seed sm smlen m o Ha Hb Hc Hd Hi Hm sk Ho. subst sk. rewrite (sign_key HE mt r Hr) in Ho by assumption. injection Ho as <-. cbn [so_sm].
  rewrite firstn_app_len by (symmetry; now apply (sig_len HE mt r Hr)). now apply row_chains.
Qed.
Print Assumptions C74_reference_chain_lengths.

Lemma ok3 (x x' : Z) (y y' z z' : bytes) : Ok (x, y, z) = Ok (x', y', z') -> x = x' /\ y = y' /\ z = z'.
Proof. intros H. injection H. auto. Qed.
Lemma ok2 {A B} (x x' : A) (y y' : B) : Ok (x, y) = Ok (x', y') -> x = x' /\ y = y'.
Proof. intros H. injection H. auto. Qed.
(** So the whole life of a key of the reference core can be simulated: two functions, which see no
    secret, produce the trace of key generation and, from the public key, the signed messages and
    the sizes of the buffers, the complete trace (nothing hidden) of every sign call. *)
Theorem C74_reference_simulated : forall (E : Env), env_ok E -> forall (mt : bool) (r : row), In r (rows mt) ->
  exists (sim_keypair : nat -> list event) (sim_sign : bytes -> bytes -> nat -> nat -> list event),
  forall pk sk rnd rc pk1 sk1 cs sk2 os, 4 + pk_size r <= length pk -> length sk = 4 + sk_size r ->
  keypair mt ref_core pk sk (r_oid r) rnd = Ok (rc, pk1, sk1) ->
  (N.of_nat (length cs) < 2 ^ N.of_nat (r_h r))%N -> Forall (call_ok r) cs ->
  sign_run mt ref_core sk1 cs = Ok (sk2, os) ->
  trace (ref_keypair_seen mt pk sk (r_oid r) rnd) = sim_keypair (length pk) /\
  watch (ref_sign_seen mt) sk1 cs =
  map (fun '(c, o) => sim_sign (firstn (4 + pk_size r) pk1) (signed_message o) (length (c_sm c)) (c_smlen c)) (combine cs os).
Proof.
  intros E HE mt r Hr.
  exists (fun l => trace (ref_keypair_seen mt (repeat 0%N l) (repeat 0%N (4 + sk_size r)) (r_oid r) (fun _ => 0%N))), (simulate mt r).
  intros pk sk rnd rc pk1 sk1 cs sk2 os Hp Hs Hk Hcs Hok Hrun. split.
  - apply C74_reference_keypair_constant_time; [exact HE|exact Hr|now rewrite repeat_length|exact Hs|apply repeat_length].
  - rewrite (keypair_rfc HE mt r pk sk rnd Hr Hp) in Hk by lia. apply ok3 in Hk. destruct Hk as (_ & <- & <-).
    assert (Es : skipn (4 + sk_size r) sk = []) by (apply skipn_all2; lia). rewrite Es, app_nil_r in Hrun. rewrite Es, app_nil_r.
    set (a := map rnd (seq 0 (r_n r))) in *. set (b := map rnd (seq (r_n r) (r_n r))) in *. set (d := map rnd (seq (2 * r_n r) (r_n r))) in *.
    assert (La : length a = r_n r) by (unfold a; now rewrite map_length, seq_length). assert (Lb : length b = r_n r) by (unfold b; now rewrite map_length, seq_length).
    assert (Ld : length d = r_n r) by (unfold d; now rewrite map_length, seq_length).
    set (c := mt_root (row_sp r) a d) in *. assert (Lc : length c = r_n r) by apply (root_facts HE mt r a d Hr).
    rewrite (life_simulated HE mt r Hr a b c d La Lb Lc Ld cs 0%N sk2 os) by assumption.
    rewrite firstn_app_len by (unfold public_key, pk_size; rewrite !app_length, toByte_length; lia).
    apply map_ext. intros [q o]. reflexivity.
Qed.
Print Assumptions C74_reference_simulated.

(** The same for the fast core.  (Its key generation copies what the caller's buffer holds where
    the traversal state will be, finding 7: the two buffers agree on the public bytes, for
    instance because both are zeroed.) *)
Theorem C74_fast_life : forall (E : Env), env_ok E -> forall (mt : bool) (r : row), In r (rows mt) ->
  forall pk pk' sk sk' rnd rnd' cs cs', length pk = length pk' -> agree (fast_mask r) sk sk' -> Forall2 same_shape cs cs' ->
  map hide (trace (fast_keypair_seen mt pk sk (r_oid r) rnd)) = map hide (trace (fast_keypair_seen mt pk' sk' (r_oid r) rnd')) /\
  forall rc p k rc' p' k',
    keypair mt fast_core pk sk (r_oid r) rnd = Ok (rc, p, k) -> keypair mt fast_core pk' sk' (r_oid r) rnd' = Ok (rc', p', k') ->
    map (map hide) (watch (fast_sign_seen mt) k cs) = map (map hide) (watch (fast_sign_seen mt) k' cs').
Proof.
  intros E HE mt r Hr pk pk' sk sk' u u' cs cs' Hp Hk Hcs.
  destruct (fast_kp_pair HE mt r Hr pk pk' sk sk' u u' Hp (ag_skip 4 _ _ _ Hk) (ag_el _ _ _ Hk)) as [H0 H]. split; [exact H0|].
  intros rc p k rc' p' k' H1 H2. rewrite !seen_fast_keypair, H1, H2 in H. destruct H as [_ H]; cbn [fst snd] in H. eapply watch_pair; [|exact Hcs|exact H]. intros. now apply fast_pair.
Qed.
Print Assumptions C74_fast_life.

(** So, for the single-tree fast core too, two functions that see no secret produce every trace of
    the life of a key, nothing hidden.  What they are given: the public bytes the caller's key buffer
    held before key generation, the public key, and the signed messages with the sizes of the buffers. *)
Theorem C74_fast_xmss_simulated : forall (E : Env), env_ok E -> forall (r : row), In r (rows false) ->
  exists (sim_keypair : bytes -> list event) (sim_life : bytes -> bytes -> list (bytes * nat * nat) -> list (list event)),
  forall pk sk rnd rc pk1 sk1 cs sk2 os, length pk = 4 + pk_size r -> length sk = 4 + fast_size r -> bytes_ok sk ->
  keypair false fast_core pk sk (r_oid r) rnd = Ok (rc, pk1, sk1) ->
  (N.of_nat (length cs) < 2 ^ N.of_nat (r_h r))%N -> Forall (call_ok r) cs ->
  sign_run false fast_core sk1 cs = Ok (sk2, os) ->
  trace (fast_keypair_seen false pk sk (r_oid r) rnd) = sim_keypair (shown (fast_mask r) sk) /\
  watch (fast_sign_seen false) sk1 cs =
  sim_life (shown (fast_mask r) sk) pk1 (map (fun '(c, o) => (signed_message o, length (c_sm c), c_smlen c)) (combine cs os)).
Proof.
  intros E HE r Hr. exists (sim_keypair r), (sim_life r).
  intros pk sk rnd rc pk1 sk1 cs sk2 os Hp Hs Hb Hk Hcs Hok Hrun. split; [now apply sim_keypair_ok|].
  rewrite (sim_life_ok HE r Hr pk sk rnd rc pk1 sk1 cs sk2 os) by assumption. f_equal. apply map_ext. intros [c o]. reflexivity.
Qed.
Print Assumptions C74_fast_xmss_simulated.

(** The multi-tree fast core computes ahead: the call that uses the last leaf of a bottom tree already
    signs the roots the next signatures will carry.  So each trace is a function of that call's signed
    message and the next one's; the trace of key generation is a function of the first signed message.
    Left out is only the trace of a last call that closes a bottom tree (its next message does not exist).
    For 40/8 and 60/12 the calls go up to index 2^20, for the other parameter sets up to the end of the key. *)
Theorem C74_fast_xmssmt_simulated_partial : forall (E : Env), env_ok E -> forall (r : row), In r (rows true) ->
  exists (sim_keypair : bytes -> bytes -> bytes -> list event) (sim_life : bytes -> bytes -> list (bytes * nat * nat) -> list (list event)),
  forall pk sk rnd rc pk1 sk1 cs sk2 os, length pk = 4 + pk_size r -> length sk = 4 + fast_size r -> bytes_ok sk ->
  keypair true fast_core pk sk (r_oid r) rnd = Ok (rc, pk1, sk1) ->
  (N.of_nat (length cs) < fast_limit r)%N -> Forall (call_ok r) cs ->
  sign_run true fast_core sk1 cs = Ok (sk2, os) ->
  (forall o os', os = o :: os' ->
    trace (fast_keypair_seen true pk sk (r_oid r) rnd) = sim_keypair (shown (fast_mask r) sk) pk1 (signed_message o)) /\
  (forall t, t < length cs -> S t < length cs \/ (N.of_nat (S t) mod 2 ^ N.of_nat (r_h r / r_d r) <> 0)%N ->
    exists seen, nth_error (watch (fast_sign_seen true) sk1 cs) t = Some seen /\
    nth_error (sim_life (shown (fast_mask r) sk) pk1 (map (fun '(c, o) => (signed_message o, length (c_sm c), c_smlen c)) (combine cs os))) t = Some seen).
Proof.
  intros E HE r Hr. exists (sim_mt_keypair r), (sim_mt_life r).
  intros pk sk rnd rc pk1 sk1 cs sk2 os Hp Hs Hb Hk Hcs Hok Hrun. split.
  - intros o os' ->. destruct cs as [|c cs].
    + pose proof (run_shapes' true _ _ _ _ Hrun) as Hl. discriminate.
    + exact (sim_mt_keypair_ok HE r Hr pk sk rnd rc pk1 sk1 c cs sk2 o os' Hp Hs Hb Hk Hcs Hok Hrun).
  - intros t Ht Ht'. destruct (sim_mt_life_ok HE r Hr pk sk rnd rc pk1 sk1 cs sk2 os Hp Hs Hb Hk Hcs Hok Hrun t Ht Ht') as (w & H1 & H2).
    exists w. split; [exact H1|]. rewrite <- H2. f_equal. f_equal. apply map_ext. intros [c o]. reflexivity.
Qed.
Print Assumptions C74_fast_xmssmt_simulated_partial.

(** The next signed message is really needed, so the property as stated fails for XMSSMT in the fast core:
    for some hash function there are two keys with the same public key such that any 32 messages get the
    same 32 signatures under both, while the traces of the 32nd call differ.  No function of the public
    key, the signed messages so far and the buffer sizes computes that trace. *)
Theorem C74_refuted_fast_xmssmt : exists (E : Env), env_ok E /\ exists (r : row), In r (rows true) /\
  exists pk0 sk0 rnd rnd', length pk0 = 4 + pk_size r /\ length sk0 = 4 + fast_size r /\
  forall cs, length cs = 32 -> Forall (call_ok r) cs ->
  exists pk k k' k1 k1' os os' seen seen',
  keypair true fast_core pk0 sk0 (r_oid r) rnd = Ok (0%Z, pk, k) /\
  keypair true fast_core pk0 sk0 (r_oid r) rnd' = Ok (0%Z, pk, k') /\
  sign_run true fast_core k cs = Ok (k1, os) /\ sign_run true fast_core k' cs = Ok (k1', os') /\
  map signed_message os = map signed_message os' /\
  nth_error (watch (fast_sign_seen true) k cs) 31 = Some seen /\ nth_error (watch (fast_sign_seen true) k' cs) 31 = Some seen' /\ seen <> seen'.
Proof.
  exists copy_env. split; [exact copy_env_ok|]. exists mt4. split; [exact mt4_in|].
  exists (repeat 0%N 68), (repeat 0%N 10942), rndA, rndB.
  split; [rewrite repeat_length; vm_compute; reflexivity|]. split; [rewrite repeat_length; vm_compute; reflexivity|]. exact two_keys.
Qed.
Print Assumptions C74_refuted_fast_xmssmt.
Example C74_refuted_applies : length (repeat (mkCall [1; 2; 3]%N (repeat 0%N 9300) 0) 32) = 32 /\
  Forall (call_ok (E := copy_env) mt4) (repeat (mkCall [1; 2; 3]%N (repeat 0%N 9300) 0) 32).
Proof.
  split; [apply repeat_length|]. apply Forall_forall. intros q Hq. apply repeat_spec in Hq. subst q. unfold call_ok. cbn [c_m c_sm]. rewrite repeat_length.
  apply Nat.leb_le. vm_compute. reflexivity.
Qed.

(** Keys that differ in every secret byte. *)
Local Existing Instance ex_env.
Definition fill (v w : N) (m : list bool) : bytes := map (fun b : bool => if b then v else w) m.
Lemma fill_agree v w w' m : agree m (fill v w m) (fill v w' m).
Proof. induction m as [|[|] m IH]; cbn; constructor; exact IH. Qed.
Example C74_reference_applies :
  let sk' := secret_key ex_row 5 (repeat 1%N 32) (repeat 2%N 32) (repeat 3%N 32) (repeat 4%N 32) in
  firstn 4 (ex_sk 5) = toByte (r_oid ex_row) 4 /\ agree (ref_mask ex_row) (ex_sk 5) sk' /\
  forall sm smlen m m', length m = length m' -> map hide (trace (ref_sign_seen false (ex_sk 5) sm smlen m)) = map hide (trace (ref_sign_seen false sk' sm smlen m')).
Proof.
  cbv zeta. assert (H4 : firstn 4 (ex_sk 5) = toByte (r_oid ex_row) 4) by reflexivity.
  assert (Ha : agree (ref_mask ex_row) (ex_sk 5) (secret_key ex_row 5 (repeat 1%N 32) (repeat 2%N 32) (repeat 3%N 32) (repeat 4%N 32))) by (vm_compute; repeat constructor).
  split; [exact H4|]. split; [exact Ha|]. revert H4 Ha. generalize (ex_sk 5). generalize (secret_key ex_row 5 (repeat 1%N 32) (repeat 2%N 32) (repeat 3%N 32) (repeat 4%N 32)).
  intros k' k H4 Ha sm smlen m m' Hm. exact (C74_reference_sign_constant_time ex_env ex_env_ok false ex_row ex_row_in k k' sm sm smlen m m' H4 Ha eq_refl Hm).
Qed.
Example C74_fast_applies :
  let k w := toByte (r_oid ex_mt_row) 4 ++ fill 0 w (skipn 4 (fast_mask ex_mt_row)) in
  firstn 4 (k 1%N) = toByte (r_oid ex_mt_row) 4 /\ agree (fast_mask ex_mt_row) (k 1%N) (k 2%N) /\
  forall sm smlen m, map hide (trace (fast_sign_seen true (k 1%N) sm smlen m)) = map hide (trace (fast_sign_seen true (k 2%N) sm smlen m)).
Proof.
  set (k := fun w => toByte (r_oid ex_mt_row) 4 ++ fill 0 w (skipn 4 (fast_mask ex_mt_row))). cbv zeta. fold (k 1%N). fold (k 2%N).
  assert (H4 : firstn 4 (k 1%N) = toByte (r_oid ex_mt_row) 4) by reflexivity.
  assert (Ha : agree (fast_mask ex_mt_row) (k 1%N) (k 2%N)).
  { change (fast_mask ex_mt_row) with (public 4 ++ skipn 4 (fast_mask ex_mt_row)). apply ag_app; [|apply fill_agree]. apply ag_refl. reflexivity. }
  split; [exact H4|]. split; [exact Ha|]. revert H4 Ha. generalize (k 1%N). generalize (k 2%N). intros k2 k1 H4 Ha sm smlen m.
  exact (C74_fast_sign_constant_time ex_env ex_env_ok true ex_mt_row ex_mt_row_in k1 k2 sm sm smlen m m H4 Ha eq_refl eq_refl).
Qed.
(** the key of that row has the length the mask says, and more than 4900 of its bytes are secret *)
Example C74_mask_size : length (fast_mask ex_mt_row) = 4 + fast_size ex_mt_row /\ length (filter negb (fast_mask ex_mt_row)) = 128 + 3 * (71 * 32) + 2144.
Proof. vm_compute. auto. Qed.
(** five messages signed after key generation: the hypotheses of the simulation theorem are met *)
Example C74_simulated_applies : exists sim pk sk sk' os,
  keypair false ref_core (repeat 0%N 68) (repeat 0%N 136) (r_oid ex_row) ex_rnd = Ok (0%Z, pk, sk) /\
  sign_run false ref_core sk (repeat ex_call 5) = Ok (sk', os) /\ length os = 5 /\
  watch (ref_sign_seen false) sk (repeat ex_call 5) = map (fun o => sim pk (signed_message o)) os.
Proof.
  destruct C01_applies as (pk & sk & sk' & os & _ & _ & Hk & Hrun & _).
  destruct (C74_reference_simulated ex_env ex_env_ok false ex_row ex_row_in) as (simk & sim & H).
  exists (fun p s => sim p s (length (repeat 7%N 3000)) 0), pk, sk, sk', os.
  assert (Lo : length os = 5).
  { clear -Hrun. assert (G : forall cs k k' os, sign_run false ref_core k cs = Ok (k', os) -> length os = length cs).
    { induction cs as [|c cs IH]; intros k k' o; cbn [sign_run]; [intros Hx; apply ok2 in Hx; now destruct Hx as [_ <-]|].
      destruct (sign false ref_core k (c_sm c) (c_smlen c) (c_m c)) as [o1| |]; try discriminate. cbn [bind].
      destruct (sign_run false ref_core (so_sk o1) cs) as [[k1 os1]| |] eqn:Er; try discriminate. cbn [bind]. intros Hx. apply ok2 in Hx. destruct Hx as [_ <-]. cbn [length]. f_equal. now apply (IH _ _ _ Er). }
    rewrite (G _ _ _ _ Hrun). apply repeat_length. }
  split; [exact Hk|]. split; [exact Hrun|]. split; [exact Lo|].
  assert (Lp : length pk = 4 + pk_size ex_row).
  { pose proof (C08_keypair_is_rfc8391 ex_env ex_env_ok false ex_row (repeat 0%N 68) (repeat 0%N 136) ex_rnd ex_row_in) as Hx. cbv zeta in Hx.
    rewrite Hk in Hx. specialize (Hx ltac:(rewrite ex_pk_len; apply Nat.le_refl) ltac:(rewrite ex_sk_len; apply Nat.le_refl)). apply ok3 in Hx. destruct Hx as (_ & -> & _).
    pose proof (root_facts ex_env_ok false ex_row (map ex_rnd (seq 0 (r_n ex_row))) (map ex_rnd (seq (2 * r_n ex_row) (r_n ex_row))) ex_row_in) as [Hl _].
    unfold public_key. rewrite !app_length, toByte_length, Hl, map_length, seq_length, skipn_length, ex_pk_len. unfold pk_size. lia. }
  assert (H4 : 4 + pk_size ex_row <= length (repeat 0%N 68)) by (rewrite ex_pk_len; apply Nat.le_refl).
  assert (H5 : (N.of_nat (length (repeat ex_call 5)) < 2 ^ N.of_nat (r_h ex_row))%N) by (vm_compute; reflexivity).
  destruct (H _ _ _ _ _ _ _ _ _ H4 ex_sk_len Hk H5 (ex_calls_ok 5) Hrun) as [_ Hw]. rewrite Hw, firstn_all2 by (rewrite Lp; apply Nat.le_refl).
  clear -Lo. do 6 (destruct os as [|? os]; try discriminate). reflexivity.
Qed.
(** 900 messages signed with a key of the fast core: the hypotheses of its simulation theorem are met *)
Example C74_fast_simulated_applies : exists sim pk sk sk' os,
  keypair false fast_core (repeat 0%N 68) (repeat 0%N 1377) (r_oid ex_row) ex_rnd = Ok (0%Z, pk, sk) /\
  sign_run false fast_core sk (repeat ex_call 900) = Ok (sk', os) /\
  watch (fast_sign_seen false) sk (repeat ex_call 900) =
  sim pk (map (fun '(c, o) => (signed_message o, length (c_sm c), c_smlen c)) (combine (repeat ex_call 900) os)).
Proof.
  destruct C26_applies as (pk & _ & kf & _ & kf' & _ & ofs & _ & Hk & _ & Hrun & _).
  destruct (C74_fast_xmss_simulated ex_env ex_env_ok ex_row ex_row_in) as (simk & sim & H).
  exists (sim (shown (fast_mask ex_row) (repeat 0%N 1377))), pk, kf, kf', ofs. split; [exact Hk|]. split; [exact Hrun|].
  assert (H5 : (N.of_nat (length (repeat ex_call 900)) < 2 ^ N.of_nat (r_h ex_row))%N) by (rewrite repeat_length; vm_compute; reflexivity).
  exact (proj2 (H _ _ _ _ _ _ _ _ _ ex_pk_len ex_fast_len (ex_fast_bytes _) Hk H5 (ex_calls_ok 900) Hrun)).
Qed.

(** 40000 messages signed with a key of four layers of 32 leaves: the trees of all layers but the top roll over,
    and the traces of the first 39999 calls are those of the simulator *)
Example C74_fast_mt_simulated_applies : exists sim pk sk sk' os,
  keypair true fast_core (repeat 0%N 68) (repeat 0%N 10942) (r_oid ex_mt4) ex_rnd = Ok (0%Z, pk, sk) /\
  sign_run true fast_core sk (repeat ex_mt_call 40000) = Ok (sk', os) /\
  forall t, S t < 40000 -> exists seen, nth_error (watch (fast_sign_seen true) sk (repeat ex_mt_call 40000)) t = Some seen /\
  nth_error (sim pk (map (fun '(c, o) => (signed_message o, length (c_sm c), c_smlen c)) (combine (repeat ex_mt_call 40000) os))) t = Some seen.
Proof.
  destruct C27_applies as (pk & _ & kf & _ & kf' & _ & ofs & _ & Hk & _ & Hrun & _).
  destruct (C74_fast_xmssmt_simulated_partial ex_env ex_env_ok ex_mt4 (proj1 ex_mt4_in)) as (simk & sim & H).
  exists (sim (shown (fast_mask ex_mt4) (repeat 0%N 10942))), pk, kf, kf', ofs. split; [exact Hk|]. split; [exact Hrun|].
  assert (H5 : (N.of_nat (length (repeat ex_mt_call 40000)) < fast_limit ex_mt4)%N) by (rewrite repeat_length; vm_compute; reflexivity).
  pose proof (proj2 (H _ _ _ _ _ _ _ _ _ (proj2 (proj2 ex_mt4_len)) (proj1 ex_mt4_len) (ex_mt4_bytes _) Hk H5 (ex_mt_calls_ok _) Hrun)) as G.
  rewrite repeat_length in G. intros t Ht. apply G; [|left; exact Ht]. exact (Nat.lt_trans _ _ _ (Nat.lt_succ_diag_r t) Ht).
Qed.
