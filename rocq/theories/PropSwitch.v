(** Property theorems: changing between the two implementations of the signer. *)
From Coq Require Import String.
From Verif Require Import Base Lib ModelUtils ModelParams ModelCore ModelCoreFast ModelCommons ModelXmss
  SpecRfc SpecParams SpecApi SpecComp SpecFast SpecCustom SpecSec SpecTools SpecSwitch ProofUtils ProofApi ProofMain ProofParams ProofToy3 ProofSwitch PropApi PropFast PropMt.
Local Existing Instance ex_env.

(** C63.  From the same random bytes the two implementations make the same public key, and the
    reference key is the beginning of the fast key.  After any number of signatures that is still
    so; and from then on the reference implementation may be given the fast key, as it is or cut
    down to its first bytes: it answers as if the key had always been a reference key, and does
    not touch the bytes behind. *)
Theorem C63_reference_continues_a_fast_key : forall E : Env, env_ok E -> forall mt r rnd pkF skF pkR skR cs1 cs2, In r (rows mt) -> (forall i, (rnd i < 256)%N) ->
  List.length pkF = 4 + pk_size r -> List.length skF = 4 + fast_size r -> bytes_ok skF ->
  List.length pkR = 4 + pk_size r -> List.length skR = 4 + sk_size r -> bytes_ok skR ->
  (N.of_nat (List.length cs1) < fast_limit r)%N -> (N.of_nat (List.length cs1) + N.of_nat (List.length cs2) < 2 ^ N.of_nat (r_h r))%N -> Forall (call_ok r) cs1 -> Forall (call_ok r) cs2 ->
  exists pk kF kR kF1 kR1 kF2 kR2 osF osR osF2 osR2,
    keypair mt fast_core pkF skF (r_oid r) rnd = Ok (0%Z, pk, kF) /\ keypair mt ref_core pkR skR (r_oid r) rnd = Ok (0%Z, pk, kR) /\ firstn (4 + sk_size r) kF = kR /\
    sign_run mt fast_core kF cs1 = Ok (kF1, osF) /\ sign_run mt ref_core kR cs1 = Ok (kR1, osR) /\ map sign_answer osF = map sign_answer osR /\ firstn (4 + sk_size r) kF1 = kR1 /\
    sign_run mt ref_core kF1 cs2 = Ok (kF2, osF2) /\ sign_run mt ref_core kR1 cs2 = Ok (kR2, osR2) /\ map sign_answer osF2 = map sign_answer osR2 /\ firstn (4 + sk_size r) kF2 = kR2 /\
    skipn (4 + sk_size r) kF2 = skipn (4 + sk_size r) kF1.
Proof. intros E HE mt r rnd pkF skF pkR skR cs1 cs2 Hr. exact (switch HE mt r Hr rnd pkF skF pkR skR cs1 cs2). Qed.
Print Assumptions C63_reference_continues_a_fast_key.
Example C63_applies : forall k1 k2, k1 + k2 < 1024 -> exists pk kF kR kF1 kR1 kF2 kR2 osF osR osF2 osR2,
    keypair false fast_core (repeat 0%N 68) (repeat 0%N 1377) (r_oid ex_row) ex_rnd = Ok (0%Z, pk, kF) /\
    keypair false ref_core (repeat 0%N 68) (repeat 0%N 136) (r_oid ex_row) ex_rnd = Ok (0%Z, pk, kR) /\
    sign_run false fast_core kF (repeat ex_call k1) = Ok (kF1, osF) /\ sign_run false ref_core kR (repeat ex_call k1) = Ok (kR1, osR) /\ map sign_answer osF = map sign_answer osR /\
    sign_run false ref_core kF1 (repeat ex_call k2) = Ok (kF2, osF2) /\ sign_run false ref_core kR1 (repeat ex_call k2) = Ok (kR2, osR2) /\ map sign_answer osF2 = map sign_answer osR2.
Proof.
  intros k1 k2 Hk.
  destruct (C63_reference_continues_a_fast_key ex_env ex_env_ok false ex_row ex_rnd (repeat 0%N 68) (repeat 0%N 1377) (repeat 0%N 68) (repeat 0%N 136) (repeat ex_call k1) (repeat ex_call k2)
    ex_row_in ex_rnd_bytes ex_pk_len ex_fast_len (ex_fast_bytes _) ex_pk_len ex_sk_len (ex_fast_bytes _)) as (pk & kF & kR & kF1 & kR1 & kF2 & kR2 & osF & osR & osF2 & osR2 & A1 & A2 & _ & A3 & A4 & A5 & _ & A6 & A7 & A8 & _).
  - rewrite repeat_length. change (fast_limit ex_row) with 1024%N. lia.
  - rewrite !repeat_length. change (2 ^ N.of_nat (r_h ex_row))%N with 1024%N. lia.
  - apply ex_calls_ok.
  - apply ex_calls_ok.
  - exists pk, kF, kR, kF1, kR1, kF2, kR2, osF, osR, osF2, osR2. repeat (split; [assumption|]). assumption.
Qed.

(** C64 refuted.  One signature of the reference implementation on a fast key, and the fast
    implementation does not know: the next fast call that returns has return code 0 and gives
    out index i+1 with the authentication path of leaf i; whenever i is odd and leaf i is not
    the last one of its tree, that call does return.  Its signed message
    does not open, unless two different leaves of the key pair are equal, or the hash function
    has a collision that the verification exhibits, or (with several trees) the verification
    shows a preimage in a one-time signature (C37). *)
Theorem C64_refuted_fast_after_reference : forall E : Env, env_ok E -> forall mt r rnd pkF skF cs m1 sm1 l1 c, In r (rows mt) -> (forall i, (rnd i < 256)%N) -> a_core c ->
  List.length pkF = 4 + pk_size r -> List.length skF = 4 + fast_size r -> bytes_ok skF ->
  let i := N.of_nat (List.length cs) in (i + 2 < fast_limit r)%N -> Forall (call_ok r) cs -> sig_size r + List.length m1 <= List.length sm1 ->
  let sks := map rnd (seq 0 (r_n r)) in let prfk := map rnd (seq (r_n r) (r_n r)) in let seed := map rnd (seq (2 * r_n r) (r_n r)) in let rt := mt_root (row_sp r) sks seed in
  exists pk kF kF1 osF o1,
    keypair mt fast_core pkF skF (r_oid r) rnd = Ok (0%Z, pk, kF) /\ sign_run mt fast_core kF cs = Ok (kF1, osF) /\
    sign mt ref_core kF1 sm1 l1 m1 = Ok o1 /\ so_rc o1 = 0%Z /\ signed_message o1 = mt_sign (row_sp r) sks prfk rt seed i m1 ++ m1 /\ sk_index r (so_sk o1) = (i + 1)%N /\
    (N.odd i = true -> ((i + 1) mod 2 ^ N.of_nat (sp_th (row_sp r)) <> 0)%N -> forall m2 sm2 l2, sig_size r + List.length m2 <= List.length sm2 -> exists o2, sign mt fast_core (so_sk o1) sm2 l2 m2 = Ok o2) /\
    forall m2 sm2 l2 o2, sig_size r + List.length m2 <= List.length sm2 -> sign mt fast_core (so_sk o1) sm2 l2 m2 = Ok o2 ->
      let out := signed_message o2 in
      so_rc o2 = 0%Z /\ sm_index r out = (i + 1)%N /\ skipn (sig_size r) out = m2 /\
      firstn (sp_th (row_sp r) * r_n r) (upper_part r out) = concat (auth_path (row_sp r) sks seed 0 (tree_of (row_sp r) i 0) (leaf_of (row_sp r) i 0)) /\
      (bytes_ok out -> forall mbuf mlen oo, List.length out <= List.length mbuf -> sign_open mt c mbuf mlen out pk = Ok oo -> oo_rc oo = 0%Z -> forall m', bytes_ok m' ->
       let honest := mt_sign (row_sp r) sks prfk rt seed (i + 1) m' in
       let q1 := verify_queries (row_sp r) seed rt honest m' in let q2 := verify_queries (row_sp r) seed rt (firstn (sig_size r) out) (skipn (sig_size r) out) in
       leaf (row_sp r) sks seed 0 (tree_of (row_sp r) i 0) (sibling (leaf_of (row_sp r) i 0)) = leaf (row_sp r) sks seed 0 (tree_of (row_sp r) (i + 1) 0) (sibling (leaf_of (row_sp r) (i + 1) 0)) \/
       collision (row_sp r) seed q1 q2 \/ 1 < r_d r /\ preimage (row_sp r) seed rt honest m' q1 q2).
Proof. intros E HE mt r rnd pkF skF cs m1 sm1 l1 c Hr. exact (back HE mt r Hr rnd pkF skF cs m1 sm1 l1 c). Qed.
Print Assumptions C64_refuted_fast_after_reference.
Example C64_applies : In ex_row (rows false) /\ r_d ex_row = 1 /\ N.odd (N.of_nat (List.length (repeat ex_call 7))) = true /\ ((N.of_nat (List.length (repeat ex_call 7)) + 1) mod 2 ^ N.of_nat (sp_th (row_sp ex_row)) <> 0)%N /\ (N.of_nat (List.length (repeat ex_call 7)) + 2 < fast_limit ex_row)%N /\ Forall (call_ok ex_row) (repeat ex_call 7).
Proof. split; [exact ex_row_in|]. split; [reflexivity|]. split; [reflexivity|]. split; [vm_compute; discriminate|]. split; [vm_compute; reflexivity|apply ex_calls_ok]. Qed.
(** Evaluated on a tree of height 3 with a mixing hash function: a fast signature and a
    reference signature open; the fast signature that follows has return code 0 and does not
    open; the reference signature with the same key does. *)
Definition s_story : option (list Z * list Z) :=
  match @xmss_xmssmt_initialize_params (@fast_core_sk_bytes) t_in with
  | Ok (_, p) =>
    match @fast_xmss_core_keypair mix_env p (repeat 0%N 48) (repeat 0%N (ModelParams.sk_bytes p)) (fun i => N.of_nat i) with
    | Ok (_, pk, sk) =>
      let rs k := match @ref_xmssmt_core_sign mix_env p k t_sm 0 t_msg with Ok o => o | _ => mkSign 9 [] [] 0 end in
      let o1 := t_sign p sk in let o2 := rs (so_sk o1) in let o3 := t_sign p (so_sk o2) in let o3' := rs (so_sk o2) in
      Some ([so_rc o1; so_rc o2; so_rc o3; so_rc o3'], map (t_open p pk) [o1; o2; o3; o3'])
    | _ => None
    end
  | _ => None
  end.
Example C64_run : env_ok mix_env /\ s_story = Some ([0; 0; 0; 0]%Z, [0; 0; -1; 0]%Z).
Proof. split; [exact mix_env_ok|]. vm_compute. reflexivity. Qed.
