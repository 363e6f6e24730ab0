(** Property theorems about the fast core (xmss_core_fast.c).  [E] ranges over all
    environments as in PropApi. *)
From Coq Require Import String.
From Verif Require Import Base ModelParams ModelCore ModelCoreFast ModelCommons ModelXmss SpecRfc SpecParams SpecApi SpecComp SpecFast.
From Verif Require Import ProofToy ProofMain3 ProofFast3 ProofFast4 ProofFast6 ProofFast7 PropApi.

Local Existing Instance ex_env.
(** buffers and configurations of the non-vacuity examples *)
Example ex_fast_len : length (repeat 0%N 1377) = 4 + fast_size ex_row.
Proof. vm_compute. reflexivity. Qed.
Example ex_fast_bytes k : bytes_ok (repeat 0%N k).
Proof. apply Forall_forall. intros x Hx. apply repeat_spec in Hx. now subst. Qed.

(** C26. XMSS: from the same randomness both cores make the same public key, and in every
    history of fewer than 2^h calls every answer (return code, signed message buffer,
    length) of the fast core is the reference core's; the fast secret key starts with the
    reference secret key all along. *)
Theorem C26_fast_xmss_is_reference : forall E : Env, env_ok E -> forall r rnd pkr skr pkf skf cs, In r (rows false) ->
  (forall i, (rnd i < 256)%N) ->
  length pkr = 4 + pk_size r -> length skr = 4 + sk_size r -> length pkf = 4 + pk_size r -> length skf = 4 + fast_size r -> bytes_ok skf ->
  (N.of_nat (length cs) < 2 ^ N.of_nat (r_h r))%N -> Forall (call_ok r) cs ->
  exists pk kr kf kr' kf' ors ofs,
    keypair false ref_core pkr skr (r_oid r) rnd = Ok (0%Z, pk, kr) /\
    keypair false fast_core pkf skf (r_oid r) rnd = Ok (0%Z, pk, kf) /\
    length kf = 4 + fast_size r /\ firstn (4 + sk_size r) kf = kr /\
    sign_run false ref_core kr cs = Ok (kr', ors) /\ sign_run false fast_core kf cs = Ok (kf', ofs) /\
    length kf' = 4 + fast_size r /\ firstn (4 + sk_size r) kf' = kr' /\
    length ors = length cs /\ Forall2 same_answer ors ofs.
Proof. intros E HE r rnd pkr skr pkf skf cs Hr. exact (xmss_agree r rnd pkr skr pkf skf cs HE Hr). Qed.
Print Assumptions C26_fast_xmss_is_reference.
Example C26_applies : exists pk kr kf kr' kf' ors ofs,
    keypair (E := ex_env) false ref_core (repeat 0%N 68) (repeat 0%N 136) (r_oid ex_row) ex_rnd = Ok (0%Z, pk, kr) /\
    keypair (E := ex_env) false fast_core (repeat 0%N 68) (repeat 0%N 1377) (r_oid ex_row) ex_rnd = Ok (0%Z, pk, kf) /\
    sign_run (E := ex_env) false ref_core kr (repeat ex_call 900) = Ok (kr', ors) /\
    sign_run (E := ex_env) false fast_core kf (repeat ex_call 900) = Ok (kf', ofs) /\ Forall2 same_answer ors ofs.
Proof.
  destruct (C26_fast_xmss_is_reference ex_env ex_env_ok ex_row ex_rnd (repeat 0%N 68) (repeat 0%N 136) (repeat 0%N 68) (repeat 0%N 1377) (repeat ex_call 900)
    ex_row_in ex_rnd_bytes ex_pk_len ex_sk_len ex_pk_len ex_fast_len (ex_fast_bytes _)) as (pk & kr & kf & kr' & kf' & ors & ofs & A1 & A2 & _ & _ & A3 & A4 & _ & _ & _ & A5).
  - rewrite repeat_length. vm_compute. reflexivity.
  - apply ex_calls_ok.
  - exists pk, kr, kf, kr', kf', ors, ofs. auto.
Qed.

(** C26 for caller-provided parameters with one tree and any usable BDS parameter k (k at
    most 1, or H-k even as the BDS algorithm requires); the core functions are called directly. *)
Theorem C26_custom_parameters : forall E : Env, env_ok E -> forall c p0 pr pf, custom_ok c -> cu_d c = 1 -> inputs c p0 ->
  xmss_xmssmt_initialize_params ref_core_sk_bytes p0 = Ok (0%Z, pr) ->
  xmss_xmssmt_initialize_params fast_core_sk_bytes p0 = Ok (0%Z, pf) ->
  bds_k p0 < cu_h c -> cu_h c <> 2 -> bds_k p0 <= 1 \/ Nat.Even (cu_h c - bds_k p0) ->
  (fast_sk_size (custom_sp c) (bds_k p0) < 2 ^ 32)%N ->
  forall rnd pkr skr pkf skf cs,
  List.length pkr = 2 * cu_n c -> List.length skr = sk_bytes pr -> List.length pkf = 2 * cu_n c -> List.length skf = sk_bytes pf -> bytes_ok skf ->
  List.length cs < 2 ^ cu_h c -> Forall (fun x => sig_bytes pr + List.length (c_m x) <= List.length (c_sm x)) cs ->
  exists pk kr kf kr' kf' ors ofs,
    ref_xmss_core_keypair pr pkr skr rnd = Ok (0%Z, pk, kr) /\
    fast_xmss_core_keypair pf pkf skf rnd = Ok (0%Z, pk, kf) /\
    firstn (sk_bytes pr) kf = kr /\
    core_run (ref_xmss_core_sign pr) kr cs = Ok (kr', ors) /\ core_run (fast_xmss_core_sign pf) kf cs = Ok (kf', ofs) /\
    firstn (sk_bytes pr) kf' = kr' /\
    List.length ors = List.length cs /\ Forall2 same_answer ors ofs /\ Forall (fun o => so_rc o = 0%Z) ors.
Proof. intros E HE c p0 pr pf Hc Hd Hi Ir If Hk H2 Hev Hsz. exact (custom_agree HE c p0 pr pf Hc Hd Hi Ir If Hk H2 Hev Hsz). Qed.
Print Assumptions C26_custom_parameters.
(** SHA-256, n = 32, w = 16, height 16 with k = 4 *)
Definition ex_custom : custom := mkCustom SHA2 32 4 32 16 1.
Definition ex_custom_in : xmss_params := mkParams 0 32 32 16 0 0 0 0 0 16 0 1 0 0 0 0 4.
Example ex_custom_in_ok : custom_ok ex_custom /\ inputs ex_custom ex_custom_in /\ cu_d ex_custom = 1.
Proof. split; [split; [right; now left|]; repeat split; cbn; auto; lia|]. repeat split. Qed.
Example C26_custom_applies :
  (exists pr, xmss_xmssmt_initialize_params ref_core_sk_bytes ex_custom_in = Ok (0%Z, pr)) /\
  (exists pf, xmss_xmssmt_initialize_params fast_core_sk_bytes ex_custom_in = Ok (0%Z, pf)) /\
  bds_k ex_custom_in < cu_h ex_custom /\ cu_h ex_custom <> 2 /\ Nat.Even (cu_h ex_custom - bds_k ex_custom_in) /\
  (fast_sk_size (custom_sp ex_custom) (bds_k ex_custom_in) < 2 ^ 32)%N.
Proof.
  split; [eexists; vm_compute; reflexivity|]. split; [eexists; vm_compute; reflexivity|].
  split; [cbn; lia|]. split; [cbn; lia|]. split; [exists 6; reflexivity|vm_compute; reflexivity].
Qed.

(** C29. What the fast core stores in the secret key it reads back, and the index, the
    seeds, the PRF key and the root keep their place. *)
Theorem C29_store_then_load : forall (E : Env) p P k sk ss ws, fast_params p P k -> length sk = sk_bytes p -> wf_traversal P k ss ws ->
  exists sk', xmssmt_serialize_state p sk ss ws = Ok sk' /\ length sk' = length sk /\
    firstn (sp_ib P + 4 * sp_n P) sk' = firstn (sp_ib P + 4 * sp_n P) sk /\ xmssmt_deserialize_state p sk' = Ok (ss, ws).
Proof. exact (@store_load). Qed.
Print Assumptions C29_store_then_load.
(** every secret key of the right size loads, into a state of the right shape, and storing
    that again changes no byte: the stored state uses exactly sk_bytes bytes. *)
Theorem C29_load_then_store : forall (E : Env) p P k sk, fast_params p P k -> length sk = sk_bytes p -> bytes_ok sk ->
  exists ss ws, xmssmt_deserialize_state p sk = Ok (ss, ws) /\ wf_traversal P k ss ws /\ xmssmt_serialize_state p sk ss ws = Ok sk.
Proof. exact (@load_store). Qed.
Print Assumptions C29_load_then_store.
Definition ex_inst (j : nat) : treehash_inst := mkTh j 700 3 1 (repeat 9%N 32).
Definition ex_state : bds_state :=
  mkBds (repeat 1%N (11 * 32)) 4 (repeat 2%N 11) (repeat 3%N (10 * 32)) (repeat 4%N (5 * 32)) (map ex_inst (seq 0 10)) [] 512.
Example C29_applies : exists p, fast_params p (row_sp ex_row) 0 /\ sk_bytes p = 1373 /\ wf_traversal (row_sp ex_row) 0 [ex_state] [].
Proof.
  eexists. split; [exact (fast_oid false ex_row _ ex_row_in (ProofParams.parse_accept_fast false ex_row _ ex_row_in))|].
  split; [vm_compute; reflexivity|].
  split; [reflexivity|]. split; [|reflexivity]. constructor; [|constructor].
  repeat split. repeat (constructor; [repeat split; apply Nat.ltb_lt; vm_compute; reflexivity|]). constructor.
Qed.

(** C44, C45 for the fast core, whatever the key contains: from index 2^h on sign returns
    -2, leaves buffer and length alone, and the key is its OID, an all-ones index, zeroes. *)
Theorem C44_fast_refused_key_is_wiped : forall (E : Env) mt r, In r (rows mt) -> forall sk sm smlen m,
  key_of r (fast_size r) sk -> (2 ^ N.of_nat (r_h r) <= sk_index r sk)%N ->
  sign mt fast_core sk sm smlen m =
  Ok (mkSign (-2) (firstn 4 sk ++ repeat 255%N (idx_size r) ++ repeat 0%N (fast_size r - idx_size r)) sm smlen).
Proof. exact (@fast_refused). Qed.
Print Assumptions C44_fast_refused_key_is_wiped.
Definition ex_fsk (i : N) : bytes := ex_sk i ++ repeat 200%N 1241.
Example ex_fsk_key : forall i, In i [5; 1023; 1024]%N -> key_of ex_row (fast_size ex_row) (ex_fsk i) /\ sk_index ex_row (ex_fsk i) = i.
Proof.
  intros i Hi. destruct (ex_sk_key i Hi) as [(A & B & C) D].
  assert (L : 4 + sk_size ex_row = 136) by (vm_compute; reflexivity). rewrite L in A.
  split; [split; [|split]|].
  - unfold ex_fsk. rewrite app_length, A, repeat_length. vm_compute. reflexivity.
  - unfold ex_fsk. rewrite firstn_app, A, firstn_O, app_nil_r. exact B.
  - apply Forall_app. split; [exact C|]. apply Forall_forall. intros x Hx. apply repeat_spec in Hx. now subst.
  - rewrite <- D at 2. unfold sk_index, ex_fsk. rewrite skipn_app, A. cbn [Nat.sub]. rewrite skipn_O, firstn_app, skipn_length, A.
    assert (I : idx_size ex_row = 4) by (vm_compute; reflexivity). rewrite I. cbn [Nat.sub]. now rewrite firstn_O, app_nil_r.
Qed.
Example C44_fast_applies : key_of ex_row (fast_size ex_row) (ex_fsk 1024) /\ (2 ^ N.of_nat (r_h ex_row) <= sk_index ex_row (ex_fsk 1024))%N /\
  key_of ex_row (fast_size ex_row) (ex_fsk 1023) /\ (sk_index ex_row (ex_fsk 1023) + 1 = 2 ^ N.of_nat (r_h ex_row))%N.
Proof.
  destruct (ex_fsk_key 1024) as [A B]; [cbn; auto|]. destruct (ex_fsk_key 1023) as [C D]; [cbn; auto|]. rewrite B, D.
  split; [exact A|]. split; [vm_compute; discriminate|]. split; [exact C|reflexivity].
Qed.

(** C02 for the fast core: the last signature does not depend on the key at all *)
Theorem C02_fast_last_signature_ignores_key : forall (E : Env) mt r, In r (rows mt) -> env_ok E -> forall sk1 sk2 sm1 sm2 l1 l2 m,
  key_of r (fast_size r) sk1 -> key_of r (fast_size r) sk2 ->
  (sk_index r sk1 + 1 = 2 ^ N.of_nat (r_h r))%N -> (sk_index r sk2 + 1 = 2 ^ N.of_nat (r_h r))%N ->
  sig_size r + length m <= length sm1 -> sig_size r + length m <= length sm2 ->
  exists o1 o2, sign mt fast_core sk1 sm1 l1 m = Ok o1 /\ sign mt fast_core sk2 sm2 l2 m = Ok o2 /\
    so_rc o1 = 0%Z /\ so_rc o2 = 0%Z /\ signed_message o1 = signed_message o2.
Proof. exact (@fast_last_keyless). Qed.
Print Assumptions C02_fast_last_signature_ignores_key.
(** ... and there is a hash function with which it is a signature its own public key rejects *)
Theorem C02_refuted_fast : exists E : Env, env_ok E /\ forall r, In r (rows false) -> r_fn r = SHA2 -> r_n r = 32 ->
  forall rnd pk0 sk0 cs m sm smlen mbuf mlen core, (forall i, (rnd i < 256)%N) -> map rnd (seq 0 32) <> repeat 0%N 32 ->
  length pk0 = 4 + pk_size r -> length sk0 = 4 + fast_size r -> bytes_ok sk0 -> a_core core ->
  (N.of_nat (length cs) + 1 = 2 ^ N.of_nat (r_h r))%N -> Forall (call_ok r) cs ->
  bytes_ok m -> sig_size r + length m <= length sm -> sig_size r + length m <= length mbuf ->
  exists pk sk sk' os o oo,
    keypair false fast_core pk0 sk0 (r_oid r) rnd = Ok (0%Z, pk, sk) /\
    sign_run false fast_core sk cs = Ok (sk', os) /\
    sign false fast_core sk' sm smlen m = Ok o /\ so_rc o = 0%Z /\
    sign_open false core mbuf mlen (signed_message o) pk = Ok oo /\ oo_rc oo = (-1)%Z.
Proof.
  exists zero_env. split; [exact zero_env_ok|]. intros r Hr Hf Hn.
  exact (fast_last_fails false r Hr Hf Hn (@good1 zero_env r) (@xstep zero_env zero_env_ok r Hr) (@x_Gser zero_env zero_env_ok r Hr) (@x_Gkey zero_env zero_env_ok r Hr)).
Qed.
Print Assumptions C02_refuted_fast.

(** C30 is false of the fast core: part of the caller's secret-key buffer survives in the
    generated secret key, so two buffers give two keys. *)
Theorem C30_refuted_fast : forall E : Env, env_ok E -> forall r, In r (rows false) ->
  exists pk0 sk1 sk2, length pk0 = 4 + pk_size r /\ length sk1 = 4 + fast_size r /\ length sk2 = 4 + fast_size r /\
  forall rnd, exists pk1 pk2 sk1' sk2',
    keypair false fast_core pk0 sk1 (r_oid r) rnd = Ok (0%Z, pk1, sk1') /\
    keypair false fast_core pk0 sk2 (r_oid r) rnd = Ok (0%Z, pk2, sk2') /\ sk1' <> sk2'.
Proof. exact (@fast_keypair_two_keys). Qed.
Print Assumptions C30_refuted_fast.

(** C03, C04, C06, C45 over the whole life of a key of the fast core: the k-th call carries
    index k and (except the last) is the RFC 8391 signature; after 2^h calls every call is
    refused and changes nothing. *)
Theorem C03_fast_life : forall E : Env, env_ok E -> forall r, In r (rows false) -> forall rnd pk0 sk0 cs pk sk,
  (forall i, (rnd i < 256)%N) ->
  length pk0 = 4 + pk_size r -> length sk0 = 4 + fast_size r -> bytes_ok sk0 ->
  keypair false fast_core pk0 sk0 (r_oid r) rnd = Ok (0%Z, pk, sk) -> Forall (call_ok r) cs ->
  let a := sk_field r 0 sk in let b := sk_field r 1 sk in let c := sk_field r 2 sk in let d := sk_field r 3 sk in
  let lim := (2 ^ N.of_nat (r_h r))%N in
  exists sk' os, sign_run false fast_core sk cs = Ok (sk', os) /\ length os = length cs /\
    (forall k x o, nth_error cs k = Some x -> nth_error os k = Some o ->
       ((N.of_nat k < lim)%N -> so_rc o = 0%Z /\ so_smlen o = sig_size r + length (c_m x) /\ sm_index r (so_sm o) = N.of_nat k) /\
       ((N.of_nat k + 1 < lim)%N -> signed_message o = mt_sign (row_sp r) a b c d (N.of_nat k) (c_m x) ++ c_m x) /\
       ((lim <= N.of_nat k)%N -> so_rc o = (-2)%Z /\ so_sm o = c_sm x /\ so_smlen o = c_smlen x)).
Proof.
  intros E HE r Hr rnd pk0 sk0 cs pk sk.
  exact (fast_life HE false r Hr (good1 r) (x_Gser HE r Hr) (x_Gkey HE r Hr) (xstep HE r Hr) rnd pk0 sk0 cs pk sk (xr_idx r Hr)).
Qed.
Print Assumptions C03_fast_life.
Example C03_fast_applies : exists pk sk, keypair false fast_core (repeat 0%N 68) (repeat 0%N 1377) (r_oid ex_row) ex_rnd = Ok (0%Z, pk, sk) /\
  Forall (call_ok ex_row) (repeat ex_call 2000) /\ (2 ^ N.of_nat (r_h ex_row) < N.of_nat (length (repeat ex_call 2000)))%N.
Proof.
  destruct C26_applies as (pk & _ & kf & _ & _ & _ & _ & _ & K & _). exists pk, kf. split; [exact K|]. split; [apply ex_calls_ok|].
  rewrite repeat_length. vm_compute. reflexivity.
Qed.
Theorem C03_fast_no_index_reuse : forall E : Env, env_ok E -> forall r, In r (rows false) -> forall rnd pk0 sk0 cs pk sk,
  (forall i, (rnd i < 256)%N) ->
  length pk0 = 4 + pk_size r -> length sk0 = 4 + fast_size r -> bytes_ok sk0 ->
  keypair false fast_core pk0 sk0 (r_oid r) rnd = Ok (0%Z, pk, sk) -> Forall (call_ok r) cs ->
  exists sk' os, sign_run false fast_core sk cs = Ok (sk', os) /\ length os = length cs /\
    forall i j oi oj, i < j -> nth_error os i = Some oi -> nth_error os j = Some oj ->
      so_rc oi = 0%Z -> so_rc oj = 0%Z -> sm_index r (so_sm oi) <> sm_index r (so_sm oj).
Proof.
  intros E HE r Hr rnd pk0 sk0 cs pk sk.
  exact (fast_no_reuse HE false r Hr (good1 r) (x_Gser HE r Hr) (x_Gkey HE r Hr) (xstep HE r Hr) rnd pk0 sk0 cs pk sk (xr_idx r Hr)).
Qed.
Print Assumptions C03_fast_no_index_reuse.

(** C01 for the fast core *)
Theorem C01_fast_signed_messages_open : forall E : Env, env_ok E -> forall r, In r (rows false) ->
  forall rnd pk0 sk0 cs m sm smlen mbuf mlen core, (forall i, (rnd i < 256)%N) ->
  length pk0 = 4 + pk_size r -> length sk0 = 4 + fast_size r -> bytes_ok sk0 -> a_core core ->
  (N.of_nat (length cs) + 1 < 2 ^ N.of_nat (r_h r))%N -> Forall (call_ok r) cs ->
  bytes_ok m -> sig_size r + length m <= length sm -> sig_size r + length m <= length mbuf ->
  exists pk sk sk' os o oo,
    keypair false fast_core pk0 sk0 (r_oid r) rnd = Ok (0%Z, pk, sk) /\
    sign_run false fast_core sk cs = Ok (sk', os) /\
    sign false fast_core sk' sm smlen m = Ok o /\ so_rc o = 0%Z /\ so_smlen o = sig_size r + length m /\
    sign_open false core mbuf mlen (signed_message o) pk = Ok oo /\
    oo_rc oo = 0%Z /\ oo_mlen oo = length m /\ firstn (length m) (oo_m oo) = m.
Proof.
  intros E HE r Hr.
  exact (fast_sign_then_open HE false r Hr (good1 r) (x_Gser HE r Hr) (x_Gkey HE r Hr) (2 ^ N.of_nat (r_h r))%N (N.le_refl _) (xstep HE r Hr)).
Qed.
Print Assumptions C01_fast_signed_messages_open.

(** C05 for the fast core: after N calls the key holds index N and the four n-byte fields
    it was generated with. *)
Theorem C05_fast_key_change : forall E : Env, env_ok E -> forall r, In r (rows false) -> forall rnd pk0 sk0 cs pk sk,
  (forall i, (rnd i < 256)%N) ->
  length pk0 = 4 + pk_size r -> length sk0 = 4 + fast_size r -> bytes_ok sk0 ->
  keypair false fast_core pk0 sk0 (r_oid r) rnd = Ok (0%Z, pk, sk) -> Forall (call_ok r) cs ->
  (N.of_nat (length cs) < 2 ^ N.of_nat (r_h r))%N ->
  exists sk' os, sign_run false fast_core sk cs = Ok (sk', os) /\ length sk' = length sk /\ sk_index r sk' = N.of_nat (length cs) /\
    firstn 4 sk' = firstn 4 sk /\ (forall i, i < 4 -> sk_field r i sk' = sk_field r i sk).
Proof.
  intros E HE r Hr.
  exact (fast_key_change HE false r Hr (good1 r) (x_Gser HE r Hr) (x_Gkey HE r Hr) (2 ^ N.of_nat (r_h r))%N (N.le_refl _) (xstep HE r Hr)).
Qed.
Print Assumptions C05_fast_key_change.
