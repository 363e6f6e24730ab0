(** Property theorems: the last signature of a key for every hash function, and the verdicts
    of the repository's own test programs. *)
From Coq Require Import String.
From Verif Require Import Base Lib ModelUtils ModelParams ModelHash ModelWots ModelCore ModelCoreFast ModelCommons ModelXmss ModelUi ModelTests
  SpecRfc SpecParams SpecApi SpecComp SpecFast SpecSec SpecForge SpecLast SpecTests
  ProofApi ProofParams ProofMain ProofMain3 ProofForge2 ProofMt7 ProofLast ProofTests ProofTests2 ProofTests3 ProofWotsAny ProofComp2 ProofToy PropApi PropFast PropMt PropTools.

(** C02, both cores and every hash function.  The last call on a key returns 0 and gives out a
    signature in which the key does not occur.  If that signed message opened under the public
    key, the hash function would be broken: a collision with the computation of the root or with
    the verification of the right signature, a collision of the randomiser, or a chain value
    none of the released signatures shows. *)
Theorem C02_last_signature_is_rejected : forall E : Env, env_ok E -> forall mt r, In r (rows mt) -> forall core size, signer r core (2 ^ N.of_nat (r_h r))%N size ->
  forall rnd pk0 sk0 cs pk sk sk' os m sm smlen, (forall i, (rnd i < 256)%N) ->
  List.length pk0 = 4 + pk_size r -> List.length sk0 = 4 + size -> bytes_ok sk0 ->
  keypair mt core pk0 sk0 (r_oid r) rnd = Ok (0%Z, pk, sk) -> sk_field r 1 sk <> repeat 0%N (r_n r) -> (N.of_nat (List.length cs) + 1 = 2 ^ N.of_nat (r_h r))%N -> Forall (call_ok r) cs ->
  sign_run mt core sk cs = Ok (sk', os) -> bytes_ok m -> sig_size r + List.length m <= List.length sm ->
  exists o sig, sign mt core sk' sm smlen m = Ok o /\ so_rc o = 0%Z /\ last_sig r m core sig /\ List.length sig = sig_size r /\ signed_message o = sig ++ m /\
  let released := map (fun o => (firstn (sig_size r) (signed_message o), skipn (sig_size r) (signed_message o))) os in
  forall c mbuf mlen oo, a_core c -> List.length (signed_message o) <= List.length mbuf ->
  sign_open mt c mbuf mlen (signed_message o) pk = Ok oo -> oo_rc oo = 0%Z ->
  last_broken r (sk_field r 0 sk) (sk_field r 1 sk) (sk_field r 2 sk) (sk_field r 3 sk) m sig released.
Proof. exact (@api_last). Qed.
Print Assumptions C02_last_signature_is_rejected.
(* non-vacuity of the hypotheses: C02_refuted_applies (the history of 1023 calls) and, for
   those of the last implication, this: with the constant hash function and a zero seed the last
   signed message does open *)
Theorem C02_last_signature_can_open : exists E : Env, env_ok E /\ forall mt r, In r (rows mt) -> r_fn r = SHA2 -> r_n r = 32 ->
  forall rnd pk0 sk0 cs m sm smlen mbuf mlen, (forall i, (rnd i < 256)%N) -> map rnd (seq 0 32) = repeat 0%N 32 ->
  List.length pk0 = 4 + pk_size r -> List.length sk0 = 4 + sk_size r ->
  (N.of_nat (List.length cs) + 1 = 2 ^ N.of_nat (r_h r))%N -> Forall (call_ok r) cs ->
  bytes_ok m -> sig_size r + List.length m <= List.length sm -> sig_size r + List.length m <= List.length mbuf ->
  exists pk sk sk' os o oo,
    keypair mt ref_core pk0 sk0 (r_oid r) rnd = Ok (0%Z, pk, sk) /\
    sign_run mt ref_core sk cs = Ok (sk', os) /\
    sign mt ref_core sk' sm smlen m = Ok o /\ so_rc o = 0%Z /\
    sign_open mt ref_core mbuf mlen (signed_message o) pk = Ok oo /\ oo_rc oo = 0%Z.
Proof. exact (ex_intro _ zero_env (conj zero_env_ok (@last_opens_zero))). Qed.
Print Assumptions C02_last_signature_can_open.

(** C09 for any address: its words (in particular the type word) may hold anything, as in test/wots.c. *)
Theorem C09_any_address : forall (E : Env) c p, env_ok E -> custom_ok c -> configured c p ->
  forall sk_seed pub_seed M x y z, List.length sk_seed = cu_n c -> List.length pub_seed = cu_n c -> List.length M = cu_n c -> bytes_ok M ->
  same_key x y -> same_key x z ->
  exists pk sig x' y' z', wots_sign p M sk_seed pub_seed x = Ok (sig, x') /\ wots_pkgen p sk_seed pub_seed y = Ok (pk, y') /\ wots_pk_from_sig p sig M pub_seed z = Ok (pk, z').
Proof. exact (@wots_any_custom). Qed.
Print Assumptions C09_any_address.

(** C62. test/xmss.c: with fewer signatures than the signer is good for, main returns 0 unless
    the flipped message of one of the rounds opens, and then the hash function is broken. *)
Theorem C62_test_xmss : forall E : Env, env_ok E -> forall mt r, In r (rows mt) -> forall core lim size, signer r core lim size ->
  forall rnd nsig, (forall i, (rnd i < 256)%N) -> bytes_ok (uninit (4 + size)) -> (N.of_nat nsig < lim)%N ->
  exists rc, test_xmss mt core (row_name r) nsig rnd = Ok rc /\
    (rc = 0%Z \/ rc = (-1)%Z /\ let n := r_n r in let sk_seed := stream rnd 32 n in let seed := stream rnd (32 + 2 * n) n in
       flip_breaks (row_sp r) sk_seed (stream rnd (32 + n) n) (mt_root (row_sp r) sk_seed seed) seed (stream rnd 0 32) nsig).
Proof. exact (@test_passes). Qed.
Print Assumptions C62_test_xmss.

(** C62. test/xmss.c compiled with -DXMSS_TEST_INVALIDSIG: main returns 0 when no flip opens; any
    flip that opens makes it return -1, and breaks the hash function. *)
Theorem C62_test_xmss_invalidsig : forall E : Env, env_ok E -> forall mt r, In r (rows mt) -> forall core lim size, signer r core lim size ->
  forall rnd nsig, (forall i, (rnd i < 256)%N) -> bytes_ok (uninit (4 + size)) -> (N.of_nat nsig < lim)%N ->
  let n := r_n r in let P := row_sp r in let sk_seed := stream rnd 32 n in let sk_prf := stream rnd (32 + n) n in let seed := stream rnd (32 + 2 * n) n in
  let rt := mt_root P sk_seed seed in let m := stream rnd 0 32 in
  exists rc, test_xmss_invalid mt core (row_name r) nsig rnd = Ok rc /\
    (rc = 0%Z /\ flips_rejected P sk_seed sk_prf rt seed m nsig \/
     rc = (-1)%Z /\ (flip_breaks P sk_seed sk_prf rt seed m nsig \/ hash_flip_breaks P sk_seed sk_prf rt seed m nsig)).
Proof. exact (@test_invalid_passes). Qed.
Print Assumptions C62_test_xmss_invalidsig.

(** C62 refuted for test/xmss_fast.  With as many signatures as the key has, main returns -1
    unless the hash function is broken. *)
Theorem C62_refuted_full_lifetime : forall E : Env, env_ok E -> forall mt r, In r (rows mt) -> forall core lim size, signer r core lim size ->
  forall rnd nsig, (forall i, (rnd i < 256)%N) -> bytes_ok (uninit (4 + size)) -> lim = (2 ^ N.of_nat (r_h r))%N -> N.of_nat nsig = (2 ^ N.of_nat (r_h r))%N ->
  let n := r_n r in let sk_seed := stream rnd 32 n in let sk_prf := stream rnd (32 + n) n in let seed := stream rnd (32 + 2 * n) n in
  let rt := mt_root (row_sp r) sk_seed seed in let m := stream rnd 0 32 in
  sk_prf <> repeat 0%N n ->
  exists rc, test_xmss mt core (row_name r) nsig rnd = Ok rc /\
    (rc = (-1)%Z \/ rc = 0%Z /\ exists sig, last_sig r m core sig /\
       last_broken r sk_seed sk_prf rt seed m sig (map (fun k => (mt_sign (row_sp r) sk_seed sk_prf rt seed (N.of_nat k) m, m)) (seq 0 (nsig - 1)))).
Proof. exact (@test_fails). Qed.
Print Assumptions C62_refuted_full_lifetime.

(** C62. test/xmss_max_signatures.c returns 0: all 2^h calls return 0, the two after that
    return -2.  What it prints as "Index" is the start of the OID. *)
Theorem C62_test_max_signatures : forall E : Env, env_ok E -> forall mt r, In r (rows mt) -> forall core lim size, signer r core lim size ->
  forall rnd nsig, (forall i, (rnd i < 256)%N) -> bytes_ok (uninit (4 + size)) -> lim = (2 ^ N.of_nat (r_h r))%N -> N.of_nat nsig = (2 ^ N.of_nat (r_h r))%N ->
  r_h r < 8 * idx_size r ->
  let z := repeat 0%N (r_n r) in
  let sk := secret_key r (256 ^ N.of_nat (idx_size r) - 1) z z z z ++ repeat 0%N (size - sk_size r) in let printed := os2ip (firstn (idx_size r) sk) in
  test_max mt core (row_name r) nsig rnd = Ok (0%Z, [((-2)%Z, printed, sk); ((-2)%Z, printed, sk)]).
Proof. exact (@max_passes). Qed.
Print Assumptions C62_test_max_signatures.

(** C62. test/xmss_determinism.c, test/speed.c, test/oid.c and test/wots.c return 0. *)
Theorem C62_test_determinism : forall E : Env, env_ok E -> forall mt r, In r (rows mt) -> forall core lim size, signer r core lim size ->
  forall rnd, (forall i, (rnd i < 256)%N) -> bytes_ok (uninit (4 + size)) -> (1 < lim)%N -> test_determinism mt core (row_name r) rnd = Ok 0%Z.
Proof. exact (@determinism_passes). Qed.
Print Assumptions C62_test_determinism.
Theorem C62_test_speed : forall E : Env, env_ok E -> forall mt r, In r (rows mt) -> forall core lim size, signer r core lim size ->
  forall rnd nsig, (forall i, (rnd i < 256)%N) -> bytes_ok (uninit (4 + size)) -> (N.of_nat nsig < lim)%N -> test_speed mt core (row_name r) nsig rnd = Ok 0%Z.
Proof. exact (@speed_passes). Qed.
Print Assumptions C62_test_speed.
Theorem C62_test_oid : forall (E : Env) core, a_core core -> test_oid core = Ok 0%Z.
Proof. exact (@oid_passes). Qed.
Print Assumptions C62_test_oid.
Theorem C62_test_wots : forall E : Env, env_ok E -> forall r core rnd, In r (rows false) -> a_core core -> (forall i, (rnd i < 256)%N) -> test_wots core (r_oid r) rnd = Ok 0%Z.
Proof. exact (@wots_passes). Qed.
Print Assumptions C62_test_wots.

(** C62. The programs of "make test", as the Makefile builds them, on any random bytes. *)
Theorem C62_make_test : forall E : Env, env_ok E -> (forall k, bytes_ok (uninit k)) -> forall rnd, (forall i, (rnd i < 256)%N) ->
  let x := "XMSS-SHA2_10_256"%string in let xmt := "XMSSMT-SHA2_20/2_256"%string in
  let verdict mt name nsig rc := forall r, In r (rows mt) -> row_name r = name ->
    rc = 0%Z \/ rc = (-1)%Z /\ let n := r_n r in let sk_seed := stream rnd 32 n in let seed := stream rnd (32 + 2 * n) n in
       flip_breaks (row_sp r) sk_seed (stream rnd (32 + n) n) (mt_root (row_sp r) sk_seed seed) seed (stream rnd 0 32) nsig in
  test_wots ref_core 1 rnd = Ok 0%Z /\
  test_oid ref_core = Ok 0%Z /\
  test_speed true fast_core xmt 16 rnd = Ok 0%Z /\
  test_determinism false ref_core x rnd = Ok 0%Z /\
  (exists rc, test_xmss false ref_core x 16 rnd = Ok rc /\ verdict false x 16 rc) /\
  (exists rc, test_xmss true ref_core xmt 16 rnd = Ok rc /\ verdict true xmt 16 rc) /\
  (exists rc, test_xmss true fast_core xmt 1024 rnd = Ok rc /\ verdict true xmt 1024 rc) /\
  (exists log, test_max false fast_core x 1024 rnd = Ok (0%Z, log)) /\
  (exists log, test_max true fast_core xmt (N.to_nat (2 ^ 20)) rnd = Ok (0%Z, log)).
Proof. exact (@make_test). Qed.
Print Assumptions C62_make_test.
Theorem C62_refuted_xmss_fast : forall E : Env, env_ok E -> (forall k, bytes_ok (uninit k)) -> forall rnd, (forall i, (rnd i < 256)%N) ->
  let sk_seed := stream rnd 32 32 in let sk_prf := stream rnd 64 32 in let seed := stream rnd 96 32 in let m := stream rnd 0 32 in
  sk_prf <> repeat 0%N 32 ->
  exists r rc, In r (rows false) /\ row_name r = "XMSS-SHA2_10_256"%string /\ let rt := mt_root (row_sp r) sk_seed seed in
    test_xmss false fast_core "XMSS-SHA2_10_256" 1024 rnd = Ok rc /\
    (rc = (-1)%Z \/ rc = 0%Z /\ exists sig, last_sig r m fast_core sig /\
       last_broken r sk_seed sk_prf rt seed m sig (map (fun k => (mt_sign (row_sp r) sk_seed sk_prf rt seed (N.of_nat k) m, m)) (seq 0 1023))).
Proof. exact (@xmss_fast_fails). Qed.
Print Assumptions C62_refuted_xmss_fast.
Local Existing Instance ex_env.
Example C62_applies : env_ok ex_env /\ (forall k, bytes_ok (uninit k)) /\ (forall i, (ex_rnd i < 256)%N) /\ stream ex_rnd 64 32 <> repeat 0%N 32.
Proof. split; [exact ex_env_ok|]. split; [apply ex_uninit_ok|]. split; [apply ex_rnd_bytes|]. vm_compute. discriminate. Qed.
