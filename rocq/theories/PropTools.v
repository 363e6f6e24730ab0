(** Property theorems: the command-line tools with either core, and histories of tool runs
    each of which may be killed anywhere. *)
From Coq Require Import String.
From Verif Require Import Base Lib ModelUtils ModelParams ModelCore ModelCoreFast ModelCommons ModelXmss ModelUi
  SpecRfc SpecParams SpecApi SpecComp SpecFast SpecUi SpecSec SpecTools ProofUtils ProofApi ProofMain ProofParams ProofAny ProofUi2 ProofUi3 ProofUi4 ProofUi5 ProofUi6 ProofUi7 ProofPath ProofToy3 PropApi PropFast PropMt PropBoth.
Local Existing Instance ex_env.

(** C48, both cores.  The keypair tool writes one key file and nothing else is possible; any
    session of fewer than [lim] sign runs on it comes to exactly one end, and every output
    opens under the first key file with its own message. *)
Theorem C48_tools_either_core : forall E : Env, env_ok E -> forall mt r core lim size rnd ms c, In r (rows mt) -> signer r core lim size ->
  (forall i, (rnd i < 256)%N) -> bytes_ok (uninit (4 + size)) -> a_core c -> (N.of_nat (List.length ms) < lim)%N -> Forall bytes_ok ms ->
  exists u kf kf' outs, ui_keypair mt core (Some (row_name r)) rnd = Ok u /\ ui_exit u = 0%Z /\
    completed [] u [] kf /\ (forall kf1, completed [] u [] kf1 -> kf1 = kf) /\
    session mt core kf ms kf' outs /\ (forall kf1 outs1, session mt core kf ms kf1 outs1 -> kf1 = kf' /\ outs1 = outs) /\
    Forall2 (fun m out => skipn (sig_size r) out = m /\ ui_open mt c true (Some kf) (Some out) = Ok (0%Z, VerificationSucceeded)) ms outs.
Proof. exact @tools_signer. Qed.
Print Assumptions C48_tools_either_core.

(** C39 refuted for both cores and every history: after any session, the sign tool can be
    killed so that the next run uses the same index, and both signed messages, for any two
    messages, are complete and open. *)
Theorem C39_refuted_index_reuse : forall E : Env, env_ok E -> forall mt r core lim size rnd ms c m1 m2, In r (rows mt) -> signer r core lim size ->
  (forall i, (rnd i < 256)%N) -> bytes_ok (uninit (4 + size)) -> a_core c -> (N.of_nat (List.length ms) + 1 < lim)%N ->
  Forall bytes_ok ms -> bytes_ok m1 -> bytes_ok m2 ->
  exists u kf kf' outs s1 s2, ui_keypair mt core (Some (row_name r)) rnd = Ok u /\ completed [] u [] kf /\ session mt core kf ms kf' outs /\
    runs mt core kf' [(kf', m1, s1); (kf', m2, s2)] /\
    (forall m s, (m, s) = (m1, s1) \/ (m, s) = (m2, s2) ->
       sm_index r (d_out s) = N.of_nat (List.length ms) /\ skipn (sig_size r) (d_out s) = m /\
       ui_open mt c true (Some kf) (Some (d_out s)) = Ok (0%Z, VerificationSucceeded)).
Proof. exact @tools_reuse. Qed.
Print Assumptions C39_refuted_index_reuse.
Example ex_uninit_ok k : bytes_ok (uninit k).
Proof. unfold uninit. apply Forall_forall. intros x Hx. apply in_map_iff in Hx. destruct Hx as (j & <- & _). vm_compute. reflexivity. Qed.
Example C48_either_applies : signer ex_row fast_core (fast_limit ex_row) (fast_size ex_row) /\ signer ex_row ref_core (2 ^ N.of_nat (r_h ex_row))%N (sk_size ex_row) /\
  (N.of_nat (List.length [[1; 2]; []; [3]]%N) + 1 < fast_limit ex_row)%N /\ bytes_ok (uninit (4 + fast_size ex_row)).
Proof. split; [constructor|]. split; [constructor|]. split; [vm_compute; reflexivity|apply ex_uninit_ok]. Qed.

(** C40 refuted for the fast core: with an exhausted key the length of the signed message is
    never set.  The tool then writes as many uninitialised bytes as the stale length says and
    exits with 0, or reads beyond the buffer. *)
Theorem C40_refuted_fast_core : forall (E : Env) mt rp r pk sk rest m, In rp (rows mt) -> In r (rows mt) ->
  key_of rp (pk_size rp) pk -> key_of r (fast_size r) sk -> (2 ^ N.of_nat (r_h r) <= sk_index r sk)%N ->
  (N.to_nat (junk 0) <= sig_size r + List.length m -> exists u kf', ui_sign mt fast_core true (Some (pk ++ sk ++ rest)) (Some m) = Ok u /\ ui_exit u = 0%Z /\
     completed (pk ++ sk ++ rest) u kf' (firstn (N.to_nat (junk 0)) (uninit (sig_size r + List.length m)))) /\
  (sig_size r + List.length m < N.to_nat (junk 0) -> ui_sign mt fast_core true (Some (pk ++ sk ++ rest)) (Some m) = UB).
Proof. exact @fast_refused_tool. Qed.
Print Assumptions C40_refuted_fast_core.
Example C40_fast_applies : key_of ex_row (fast_size ex_row) (toByte 1 4 ++ toByte 1024 4 ++ repeat 7%N (fast_size ex_row - 4)) /\
  (2 ^ N.of_nat (r_h ex_row) <= sk_index ex_row (toByte 1 4 ++ toByte 1024 4 ++ repeat 7%N (fast_size ex_row - 4)))%N /\ key_of ex_row (pk_size ex_row) ex_pk.
Proof.
  split; [|split; [vm_compute; discriminate|exact ex_pk_key]]. split; [vm_compute; reflexivity|]. split; [reflexivity|].
  rewrite !bytes_ok_app. split; [|split]; apply Forall_forall; intros x Hx; [vm_compute in Hx|vm_compute in Hx|apply repeat_spec in Hx; subst x; reflexivity];
    repeat (destruct Hx as [<-|Hx]; [reflexivity|]); destruct Hx.
Qed.

(** C58.  Runs of the sign tool on one key file, either core, each stopped anywhere: the
    index stored in the key file never goes back; it has gone up behind every run that had
    closed the key file; whatever a run released is the beginning of one signed message, and it
    carries the index that the key file had when the run began. *)
Theorem C58_stored_index : forall E : Env, env_ok E -> forall mt rp r core lim size pk sk rest l, In rp (rows mt) -> In r (rows mt) ->
  signer r core lim size -> r_h r < 8 * idx_size r -> key_of rp (pk_size rp) pk -> key_of r size sk -> runs mt core (pk ++ sk ++ rest) l ->
  let stored kf := sk_index r (skipn (List.length pk) kf) in let top := (2 ^ N.of_nat (r_h r))%N in
  (forall j kfj mj sj, nth_error l j = Some (kfj, mj, sj) ->
     List.length kfj = List.length (pk ++ sk ++ rest) /\ (stored (pk ++ sk ++ rest) <= stored kfj)%N /\
     ((stored kfj + 1 < top)%N -> idx_size r <= List.length (d_out sj) -> sm_index r (d_out sj) = stored kfj)) /\
  (forall i j kfi mi si kfj mj sj, i < j -> nth_error l i = Some (kfi, mi, si) -> nth_error l j = Some (kfj, mj, sj) ->
     (stored kfi <= stored kfj)%N /\ (~ In KeyClose (d_todo si) -> (stored kfi < top)%N -> (stored kfi < stored kfj)%N)).
Proof.
  intros E HE mt rp r core lim size pk sk rest l Hrp Hr Hs Hh Hpk Hsk Hru stored top. split.
  - intros j kfj mj sj Hj. destruct (hist_each HE mt rp r Hrp Hr core lim size pk sk rest l Hs Hh Hpk Hsk Hru j kfj mj sj Hj) as ((skj & o & q & H1 & H2 & _) & H3 & H4).
    split; [rewrite H1, !app_length, H2; destruct Hsk as [-> _]; reflexivity|]. auto.
  - intros i j kfi mi si kfj mj sj Hij Hi Hj. exact (hist_order HE mt rp r Hrp Hr core lim size pk sk rest l Hs Hh Hpk Hsk Hru i j kfi mi si kfj mj sj Hij Hi Hj).
Qed.
Print Assumptions C58_stored_index.
(** So an index can come out twice only if the earlier of the two runs was stopped before it
    had closed the key file. *)
Theorem C58_reuse_needs_a_crash : forall E : Env, env_ok E -> forall mt rp r core lim size pk sk rest l, In rp (rows mt) -> In r (rows mt) ->
  signer r core lim size -> r_h r < 8 * idx_size r -> key_of rp (pk_size rp) pk -> key_of r size sk -> runs mt core (pk ++ sk ++ rest) l ->
  let stored kf := sk_index r (skipn (List.length pk) kf) in
  forall i j kfi mi si kfj mj sj, i < j -> nth_error l i = Some (kfi, mi, si) -> nth_error l j = Some (kfj, mj, sj) ->
  (stored kfi + 1 < 2 ^ N.of_nat (r_h r))%N -> (stored kfj + 1 < 2 ^ N.of_nat (r_h r))%N ->
  idx_size r <= List.length (d_out si) -> idx_size r <= List.length (d_out sj) ->
  (sm_index r (d_out si) <= sm_index r (d_out sj))%N /\ (sm_index r (d_out si) = sm_index r (d_out sj) -> In KeyClose (d_todo si)).
Proof. exact @tools_same_index. Qed.
Print Assumptions C58_reuse_needs_a_crash.

(** C59.  The reference core survives crashes: from a key file that the keypair tool made,
    after any history of killed runs, a run that starts with stored index i below the last one
    releases the beginning of a signed message for its own message that carries i and opens. *)
Theorem C59_reference_core_survives_crashes : forall E : Env, env_ok E -> forall mt r rnd u kf l c, In r (rows mt) -> r_h r < 8 * idx_size r ->
  (forall i, (rnd i < 256)%N) -> a_core c ->
  ui_keypair mt ref_core (Some (row_name r)) rnd = Ok u -> completed [] u [] kf -> runs mt ref_core kf l ->
  forall j kfj mj sj, nth_error l j = Some (kfj, mj, sj) -> bytes_ok mj ->
    let i := sk_index r (skipn (4 + pk_size r) kfj) in (i + 1 < 2 ^ N.of_nat (r_h r))%N ->
    exists q sg, d_out sj = firstn q (sg ++ mj) /\ List.length sg = sig_size r /\ sm_index r sg = i /\
      ui_open mt c true (Some kf) (Some (sg ++ mj)) = Ok (0%Z, VerificationSucceeded).
Proof. exact @tools_ref_history. Qed.
Print Assumptions C59_reference_core_survives_crashes.
(** Such histories exist for both cores: C39_refuted_index_reuse builds one behind any session. *)
Example C59_applies : exists u kf s1 s2, ui_keypair false ref_core (Some (row_name ex_row)) ex_rnd = Ok u /\ completed [] u [] kf /\
  runs false ref_core kf [(kf, [1; 2]%N, s1); (kf, [3]%N, s2)] /\ r_h ex_row < 8 * idx_size ex_row.
Proof.
  destruct (C39_refuted_index_reuse ex_env ex_env_ok false ex_row ref_core _ _ ex_rnd [] ref_core [1; 2]%N [3]%N ex_row_in (signer_ref ex_row) ex_rnd_bytes (ex_uninit_ok _)
    (or_introl eq_refl)) as (u & kf & kf' & outs & s1 & s2 & H1 & H2 & H3 & H4 & _); [vm_compute; reflexivity|constructor|repeat constructor|repeat constructor|].
  inversion H3; subst. exists u, kf', s1, s2. split; [exact H1|]. split; [exact H2|]. split; [exact H4|]. vm_compute. lia.
Qed.

(** C36, authentication paths.  Two signed messages with the same index that open under the
    same public key show the same authentication path in the top layer, and in every layer
    whose root they agree on, unless their verifications exhibit a collision. *)
Theorem C36_accepted_signatures_share_paths : forall E : Env, env_ok E -> forall mt r c1 c2 mb1 mb2 l1 l2 sm1 sm2 pk o1 o2, In r (rows mt) ->
  a_core c1 -> a_core c2 -> key_of r (pk_size r) pk ->
  sig_size r <= List.length sm1 -> sig_size r <= List.length sm2 -> bytes_ok sm1 -> bytes_ok sm2 -> List.length sm1 <= List.length mb1 -> List.length sm2 <= List.length mb2 ->
  sign_open mt c1 mb1 l1 sm1 pk = Ok o1 -> oo_rc o1 = 0%Z -> sign_open mt c2 mb2 l2 sm2 pk = Ok o2 -> oo_rc o2 = 0%Z ->
  sm_index r sm1 = sm_index r sm2 ->
  let P := row_sp r in
  let rt := firstn (r_n r) (skipn 4 pk) in let seed := skipn (4 + r_n r) pk in
  let sig1 := firstn (sig_size r) sm1 in let m1 := skipn (sig_size r) sm1 in
  let sig2 := firstn (sig_size r) sm2 in let m2 := skipn (sig_size r) sm2 in
  (layer_auth P sig1 (r_d r - 1) = layer_auth P sig2 (r_d r - 1) \/
   collision P seed (verify_queries P seed rt sig1 m1) (verify_queries P seed rt sig2 m2)) /\
  (forall k, S k < r_d r -> signed_at P seed rt sig1 m1 (S k) = signed_at P seed rt sig2 m2 (S k) ->
   layer_auth P sig1 k = layer_auth P sig2 k \/
   collision P seed (verify_queries P seed rt sig1 m1) (verify_queries P seed rt sig2 m2)).
Proof. exact @accepted_paths. Qed.
Print Assumptions C36_accepted_signatures_share_paths.

(** C60 refuted.  With the fast core the bytes behind the WOTS+ signature of the lowest layer
    come from the stored traversal state alone, whatever the index in the key says... *)
Theorem C60_path_comes_from_the_state : forall (E : Env) mt r k1 k2 sm1 l1 m1 o1 sm2 l2 m2 o2, In r (rows mt) ->
  key_of r (fast_size r) k1 -> key_of r (fast_size r) k2 -> skipn (4 + sk_size r) k1 = skipn (4 + sk_size r) k2 ->
  (sk_index r k1 + 1 < 2 ^ N.of_nat (r_h r))%N -> (sk_index r k2 + 1 < 2 ^ N.of_nat (r_h r))%N ->
  sign mt fast_core k1 sm1 l1 m1 = Ok o1 -> sign mt fast_core k2 sm2 l2 m2 = Ok o2 ->
  upper_part r (so_sm o1) = upper_part r (so_sm o2).
Proof. intros E mt r k1 k2 sm1 l1 m1 o1 sm2 l2 m2 o2 Hr. exact (same_state_same_path mt r Hr k1 k2 sm1 l1 m1 o1 sm2 l2 m2 o2 (rows_h60 mt r Hr)). Qed.
Print Assumptions C60_path_comes_from_the_state.
(** ... and the tools can be stopped between the two: behind any session, a sign run can be
    killed so that the released signed message is complete and opens, the key file says i+1,
    and every later completed run releases a signed message with index i+1 and the
    authentication path of leaf i; whenever i is odd and leaf i is not the last one of its
    tree, such a run exists for every message.  That message does not open, unless two
    different leaves of the key pair are equal, or the hash function has a collision that the
    verification exhibits, or (with several trees) the verification shows a preimage in a
    one-time signature (C37). *)
Theorem C60_refuted_torn_key_file : forall E : Env, env_ok E -> forall mt r rnd ms c m, In r (rows mt) ->
  (forall i, (rnd i < 256)%N) -> bytes_ok (uninit (4 + fast_size r)) -> a_core c ->
  let i := N.of_nat (List.length ms) in (i + 2 < fast_limit r)%N -> Forall bytes_ok ms -> bytes_ok m ->
  let P := row_sp r in let n := r_n r in
  let sks := map rnd (seq 0 n) in let seed := map rnd (seq (2 * n) n) in
  exists u kf kf' outs s, ui_keypair mt fast_core (Some (row_name r)) rnd = Ok u /\ completed [] u [] kf /\ session mt fast_core kf ms kf' outs /\
    runs mt fast_core kf' [(kf', m, s)] /\
    sm_index r (d_out s) = i /\ skipn (sig_size r) (d_out s) = m /\ ui_open mt c true (Some kf) (Some (d_out s)) = Ok (0%Z, VerificationSucceeded) /\
    sk_index r (skipn (4 + pk_size r) (d_key s)) = (i + 1)%N /\
    (N.odd i = true -> ((i + 1) mod 2 ^ N.of_nat (sp_th P) <> 0)%N -> forall m2, exists u2 kf2 out2, ui_sign mt fast_core true (Some (d_key s)) (Some m2) = Ok u2 /\ completed (d_key s) u2 kf2 out2) /\
    forall m2 u2 kf2 out2, ui_sign mt fast_core true (Some (d_key s)) (Some m2) = Ok u2 -> completed (d_key s) u2 kf2 out2 ->
      sm_index r out2 = (i + 1)%N /\ skipn (sig_size r) out2 = m2 /\ upper_part r out2 = upper_part r (d_out s) /\
      firstn (sp_th P * n) (upper_part r out2) = concat (auth_path P sks seed 0 (tree_of P i 0) (leaf_of P i 0)) /\
      (bytes_ok out2 -> ui_open mt c true (Some kf) (Some out2) = Ok (0%Z, VerificationSucceeded) -> forall m', bytes_ok m' ->
       let rt := mt_root P sks seed in let honest := mt_sign P sks (map rnd (seq n n)) rt seed (i + 1) m' in
       let q1 := verify_queries P seed rt honest m' in let q2 := verify_queries P seed rt (firstn (sig_size r) out2) (skipn (sig_size r) out2) in
       leaf P sks seed 0 (tree_of P i 0) (sibling (leaf_of P i 0)) = leaf P sks seed 0 (tree_of P (i + 1) 0) (sibling (leaf_of P (i + 1) 0)) \/
       collision P seed q1 q2 \/ 1 < r_d r /\ preimage P seed rt honest m' q1 q2).
Proof. intros E HE mt r rnd ms c m Hr. exact (tools_torn_fast HE mt r Hr rnd ms c m). Qed.
Print Assumptions C60_refuted_torn_key_file.
Example C60_applies : In ex_row (rows false) /\ N.odd (N.of_nat (List.length [[1; 2]; []; [3]]%N)) = true /\ ((N.of_nat (List.length [[1; 2]; []; [3]]%N) + 1) mod 2 ^ N.of_nat (sp_th (row_sp ex_row)) <> 0)%N /\ (N.of_nat (List.length [[1; 2]; []; [3]]%N) + 2 < fast_limit ex_row)%N /\ r_d ex_row = 1 /\
  bytes_ok (uninit (4 + fast_size ex_row)) /\ Forall bytes_ok [[1; 2]; []; [3]]%N.
Proof. split; [exact ex_row_in|]. split; [reflexivity|]. split; [vm_compute; discriminate|]. split; [vm_compute; reflexivity|]. split; [reflexivity|]. split; [apply ex_uninit_ok|]. repeat (constructor; [repeat constructor|]). constructor. Qed.
(** A run of the fast core on a tree of height 3 with a mixing hash function, evaluated: three
    signatures open; the call with the torn key returns 0 and its signed message does not
    open; the call with the complete new key does. *)
Example C60_run : env_ok mix_env /\ t_story = Some (2524, [0; 0; 0; 0; 0]%Z, [0; 0; 0; -1; 0]%Z).
Proof. split; [exact mix_env_ok|exact t_story_eq]. Qed.
