(** Properties over whole histories and both signers, against any forger. *)
From Verif Require Import Base Lib ModelUtils ModelParams ModelHash ModelWots ModelCommons ModelCore ModelCoreFast ModelXmss SpecRfc SpecParams SpecApi SpecComp SpecSec SpecForge SpecFast
  ProofParams ProofApi ProofMain ProofFast3 ProofFast4 ProofFast6 ProofFast7 ProofMt7 ProofForge2 PropApi PropFast PropMt.
Local Existing Instance ex_env.

(** C49. A forger who has seen everything a signer (either core) has given out, and now
    presents a signed message that opens under the signer's public key.  Let k be its index
    and m' the message the signer has signed with index k, or, when the signer has not used
    index k yet, any message at all.  Unless the verification hashes to the public root at
    a place outside the key's trees (possible only for an index the key does not have),
    k is an index of the key, and if what was presented is not exactly the
    signed message of m' with that index (same message, same signature) then the forger has
    either a collision of a keyed hash at one place, or a chain value below the honest one at a position which no
    released signature lets anybody evaluate. *)
Theorem C49_no_forgery : forall E : Env, env_ok E -> forall mt r, In r (rows mt) ->
  forall core lim size, signer r core lim size -> forall rnd pk0 sk0 cs pk sk sk' os c mbuf mlen sm oo, (forall i, (rnd i < 256)%N) ->
  length pk0 = 4 + pk_size r -> length sk0 = 4 + size -> bytes_ok sk0 ->
  keypair mt core pk0 sk0 (r_oid r) rnd = Ok (0%Z, pk, sk) -> (N.of_nat (length cs) < lim)%N -> Forall (call_ok r) cs ->
  sign_run mt core sk cs = Ok (sk', os) ->
  a_core c -> sig_size r <= length sm -> bytes_ok sm -> length sm <= length mbuf ->
  sign_open mt c mbuf mlen sm pk = Ok oo -> oo_rc oo = 0%Z ->
  let P := row_sp r in
  let seed := sk_field r 3 sk in let rt := sk_field r 2 sk in
  let released := map (fun o => (firstn (sig_size r) (signed_message o), skipn (sig_size r) (signed_message o))) os in
  let k := sm_index r sm in let msg := skipn (sig_size r) sm in
  let forged := verify_queries P seed rt (firstn (sig_size r) sm) msg in
  foreign_root P seed rt forged \/
  (k < 2 ^ N.of_nat (r_h r))%N /\
  forall m', bytes_ok m' -> mt_sign P (sk_field r 0 sk) (sk_field r 1 sk) rt seed k m' ++ m' <> sm -> (forall x, nth_error cs (N.to_nat k) = Some x -> m' = c_m x) ->
    let hsig := mt_sign P (sk_field r 0 sk) (sk_field r 1 sk) rt seed k m' in
    collision P seed (verify_queries P seed rt hsig m') forged \/ inverted P seed rt released hsig m' forged.
Proof. exact (@api_no_forgery). Qed.
Print Assumptions C49_no_forgery.
(** Met by one who knows the secret key: after 40000 fast XMSSMT-SHA2_20/4_256 signatures, a
    second message for index 3, and a first one for index 50000. *)
Example C49_applies : signer (E := ex_env) ex_mt4 fast_core (fast_limit ex_mt4) (fast_size ex_mt4) /\
  forall k, In k [3; 50000]%N -> exists pk sk sk' os sm mbuf oo,
    keypair (E := ex_env) true fast_core (repeat 0%N 68) (repeat 0%N 10942) (r_oid ex_mt4) ex_rnd = Ok (0%Z, pk, sk) /\
    sign_run (E := ex_env) true fast_core sk (repeat ex_mt_call 40000) = Ok (sk', os) /\
    sig_size ex_mt4 <= length sm /\ bytes_ok sm /\ length sm <= length mbuf /\
    sign_open (E := ex_env) true ref_core mbuf 0 sm pk = Ok oo /\ oo_rc oo = 0%Z /\ sm_index ex_mt4 sm = k /\ skipn (sig_size ex_mt4) sm = [9]%N.
Proof.
  split; [constructor|]. intros k Hk.
  refine (forge_met ex_env_ok true ex_mt4 (proj1 ex_mt4_in) fast_core _ _ (signer_fast ex_mt4) _ ex_rnd (repeat 0%N 68) (repeat 0%N 10942) (repeat ex_mt_call 40000) k [9]%N ref_core
    ex_rnd_bytes (proj2 (proj2 ex_mt4_len)) (proj1 ex_mt4_len) (ex_mt4_bytes _) _ (ex_mt_calls_ok _) _ (or_introl eq_refl) _).
  - intros rnd pk0 sk0 Hb Lp Ls Bs.
    destruct (fkey_mat ex_env_ok true ex_mt4 (proj1 ex_mt4_in) (goodm ex_mt4) (mkey ex_env_ok ex_mt4 (proj1 ex_mt4_in)) pk0 sk0 rnd Hb Lp Ls Bs) as (a & b & ct & d & ext & _ & _ & _ & _ & Hkp).
    eexists _, _. exact Hkp.
  - rewrite repeat_length. vm_compute. reflexivity.
  - repeat constructor.
  - destruct Hk as [<-|[<-|[]]]; vm_compute; reflexivity.
Qed.

(** C49, in terms of the hash function itself: a signed message that opens and was not given
    out contains a collision of the hash function with what the signer hashes, or an unseen
    chain value.  For an index the key does not have it is always a collision: of the last
    hash of key generation with a hash of the verification. *)
Theorem C49_forgery_breaks_the_hash : forall E : Env, env_ok E -> forall mt r, In r (rows mt) ->
  forall core lim size, signer r core lim size -> forall rnd pk0 sk0 cs pk sk sk' os c mbuf mlen sm oo, (forall i, (rnd i < 256)%N) ->
  length pk0 = 4 + pk_size r -> length sk0 = 4 + size -> bytes_ok sk0 ->
  keypair mt core pk0 sk0 (r_oid r) rnd = Ok (0%Z, pk, sk) -> (N.of_nat (length cs) < lim)%N -> Forall (call_ok r) cs ->
  sign_run mt core sk cs = Ok (sk', os) ->
  a_core c -> sig_size r <= length sm -> bytes_ok sm -> length sm <= length mbuf ->
  sign_open mt c mbuf mlen sm pk = Ok oo -> oo_rc oo = 0%Z ->
  let P := row_sp r in
  let seed := sk_field r 3 sk in let rt := sk_field r 2 sk in
  let released := map (fun o => (firstn (sig_size r) (signed_message o), skipn (sig_size r) (signed_message o))) os in
  let k := sm_index r sm in let msg := skipn (sig_size r) sm in
  let forged := verify_queries P seed rt (firstn (sig_size r) sm) msg in
  ((2 ^ N.of_nat (r_h r) <= k)%N -> hash_collision P seed [root_query P seed (sk_field r 0 sk)] forged) /\
  ((k < 2 ^ N.of_nat (r_h r))%N ->
   forall m', bytes_ok m' -> mt_sign P (sk_field r 0 sk) (sk_field r 1 sk) rt seed k m' ++ m' <> sm -> (forall x, nth_error cs (N.to_nat k) = Some x -> m' = c_m x) ->
    let hsig := mt_sign P (sk_field r 0 sk) (sk_field r 1 sk) rt seed k m' in
    hash_collision P seed (verify_queries P seed rt hsig m') forged \/ inverted P seed rt released hsig m' forged).
Proof. exact (@api_forgery_breaks). Qed.
Print Assumptions C49_forgery_breaks_the_hash.

(** C43, what holds: the verifier does not check the range of the index, but a signed message with
    an index the key does not have opens only by a collision of the hash function between
    the last hash of key generation and a hash of the verification. *)
Theorem C43_out_of_range_is_a_collision_partial : forall E : Env, env_ok E -> forall mt r, In r (rows mt) ->
  forall core lim size, signer r core lim size -> (0 < lim)%N -> forall rnd pk0 sk0 pk sk c mbuf mlen sm oo, (forall i, (rnd i < 256)%N) ->
  length pk0 = 4 + pk_size r -> length sk0 = 4 + size -> bytes_ok sk0 ->
  keypair mt core pk0 sk0 (r_oid r) rnd = Ok (0%Z, pk, sk) ->
  a_core c -> sig_size r <= length sm -> bytes_ok sm -> length sm <= length mbuf ->
  sign_open mt c mbuf mlen sm pk = Ok oo -> oo_rc oo = 0%Z -> (2 ^ N.of_nat (r_h r) <= sm_index r sm)%N ->
  let P := row_sp r in let seed := sk_field r 3 sk in
  hash_collision P seed [root_query P seed (sk_field r 0 sk)] (verify_queries P seed (sk_field r 2 sk) (firstn (sig_size r) sm) (skipn (sig_size r) sm)).
Proof. exact (@api_out_of_range). Qed.
Print Assumptions C43_out_of_range_is_a_collision_partial.
(** Met (C43_refuted) with a hash function that has many collisions, index 1024 of a key with 1024. *)
Example C43_partial_applies : env_ok ProofMain3.zero_env /\
  exists pk sk sm oo, keypair (E := ProofMain3.zero_env) false ref_core (repeat 0%N 68) (repeat 0%N 136) (r_oid ex_row) ex_rnd = Ok (0%Z, pk, sk) /\
    sm_index ex_row sm = 1024%N /\ sign_open (E := ProofMain3.zero_env) false ref_core (repeat 0%N 3000) 0 sm pk = Ok oo /\ oo_rc oo = 0%Z.
Proof.
  split; [exact ProofMain3.zero_env_ok|].
  refine (ProofMain3.big_index_accepted false ex_row ex_row_in _ _ ex_rnd (repeat 0%N 68) (repeat 0%N 136) 1024%N [9]%N (repeat 0%N 3000) 0 ex_rnd_bytes _ _ _ _ _);
    try reflexivity.
  - split; [vm_compute; discriminate|reflexivity].
  - repeat constructor.
  - apply Nat.leb_le. vm_compute. reflexivity.
Qed.

(** C50. A one-time key in any layer signs one value only: whenever the indices of two
    signatures of a history agree on the tree and the leaf in layer l, the two signatures carry the same
    layer-l part (one-time signature and authentication path). *)
Theorem C50_one_time_key_signs_one_value : forall E : Env, env_ok E -> forall mt r, In r (rows mt) ->
  forall core lim size, signer r core lim size -> forall rnd pk0 sk0 cs pk sk sk' os i j oi oj l, (forall i, (rnd i < 256)%N) ->
  length pk0 = 4 + pk_size r -> length sk0 = 4 + size -> bytes_ok sk0 ->
  keypair mt core pk0 sk0 (r_oid r) rnd = Ok (0%Z, pk, sk) -> (N.of_nat (length cs) < lim)%N -> Forall (call_ok r) cs ->
  sign_run mt core sk cs = Ok (sk', os) -> nth_error os i = Some oi -> nth_error os j = Some oj -> l < r_d r ->
  let P := row_sp r in
  tree_of P (sm_index r (so_sm oi)) l = tree_of P (sm_index r (so_sm oj)) l -> leaf_of P (sm_index r (so_sm oi)) l = leaf_of P (sm_index r (so_sm oj)) l ->
  let size_of_layer := (sp_len P + sp_th P) * r_n r in
  let part o := firstn size_of_layer (skipn (idx_size r + r_n r + l * size_of_layer) (signed_message o)) in
  so_rc oi = 0%Z /\ so_rc oj = 0%Z /\ part oi = part oj.
Proof. exact (@api_one_value). Qed.
Print Assumptions C50_one_time_key_signs_one_value.
(** e.g. signatures 96 and 127 of XMSSMT-SHA2_20/4_256 use the same one-time key of layer 1,
    96 and 128 do not *)
Example C50_applies : let P := row_sp (E := ex_env) ex_mt4 in
  tree_of P 96 1 = tree_of P 127 1 /\ leaf_of P 96 1 = leaf_of P 127 1 /\ leaf_of P 96 1 <> leaf_of P 128 1.
Proof. vm_compute. repeat split. discriminate. Qed.

(** C61. No change to a signed message goes unnoticed.  Take the j-th signed message that a
    signer (either core) gave out and change it anywhere (in the message, in the signature, or
    by adding or dropping message bytes), keeping the index field.  If the result still opens, a
    collision of the hash function with the hashes of verifying the original is at hand, or an
    unseen chain value.  (For a changed index field see C49: the result is then a forgery for
    that other index.) *)
Theorem C61_modified_signed_messages : forall E : Env, env_ok E -> forall mt r, In r (rows mt) ->
  forall core lim size, signer r core lim size -> forall rnd pk0 sk0 cs pk sk sk' os j x o c mbuf mlen sm oo, (forall i, (rnd i < 256)%N) ->
  length pk0 = 4 + pk_size r -> length sk0 = 4 + size -> bytes_ok sk0 ->
  keypair mt core pk0 sk0 (r_oid r) rnd = Ok (0%Z, pk, sk) -> (N.of_nat (length cs) < lim)%N -> Forall (call_ok r) cs ->
  sign_run mt core sk cs = Ok (sk', os) -> nth_error cs j = Some x -> nth_error os j = Some o -> bytes_ok (c_m x) ->
  a_core c -> sig_size r <= length sm -> bytes_ok sm -> length sm <= length mbuf ->
  firstn (idx_size r) sm = firstn (idx_size r) (signed_message o) -> sm <> signed_message o ->
  sign_open mt c mbuf mlen sm pk = Ok oo -> oo_rc oo = 0%Z ->
  let P := row_sp r in
  let seed := sk_field r 3 sk in let rt := sk_field r 2 sk in
  let released := map (fun o => (firstn (sig_size r) (signed_message o), skipn (sig_size r) (signed_message o))) os in
  let forged := verify_queries P seed rt (firstn (sig_size r) sm) (skipn (sig_size r) sm) in
  let given := firstn (sig_size r) (signed_message o) in
  hash_collision P seed (verify_queries P seed rt given (c_m x)) forged \/ inverted P seed rt released given (c_m x) forged.
Proof. exact (@api_modified). Qed.
Print Assumptions C61_modified_signed_messages.
(** Met by one who knows the secret key: another message with the index of signature 3
    (or 30000) out of 40000 fast XMSSMT-SHA2_20/4_256 ones. *)
Example C61_applies : forall j, In j [3; 30000] -> exists pk sk sk' os o sm mbuf oo,
    keypair (E := ex_env) true fast_core (repeat 0%N 68) (repeat 0%N 10942) (r_oid ex_mt4) ex_rnd = Ok (0%Z, pk, sk) /\
    sign_run (E := ex_env) true fast_core sk (repeat ex_mt_call 40000) = Ok (sk', os) /\ nth_error os j = Some o /\
    sig_size ex_mt4 <= length sm /\ bytes_ok sm /\ length sm <= length mbuf /\
    firstn (idx_size ex_mt4) sm = firstn (idx_size ex_mt4) (signed_message o) /\ sm <> signed_message o /\
    sign_open (E := ex_env) true ref_core mbuf 0 sm pk = Ok oo /\ oo_rc oo = 0%Z.
Proof.
  intros j Hj.
  refine (modified_met ex_env_ok true ex_mt4 (proj1 ex_mt4_in) fast_core _ _ (signer_fast ex_mt4) _ ex_rnd (repeat 0%N 68) (repeat 0%N 10942) (repeat ex_mt_call 40000) j ex_mt_call [9]%N ref_core
    ex_rnd_bytes (proj2 (proj2 ex_mt4_len)) (proj1 ex_mt4_len) (ex_mt4_bytes _) _ (ex_mt_calls_ok _) _ (or_introl eq_refl) _ _).
  - intros rnd pk0 sk0 Hb Lp Ls Bs.
    destruct (fkey_mat ex_env_ok true ex_mt4 (proj1 ex_mt4_in) (goodm ex_mt4) (mkey ex_env_ok ex_mt4 (proj1 ex_mt4_in)) pk0 sk0 rnd Hb Lp Ls Bs) as (a & b & ct & d & ext & _ & _ & _ & _ & Hkp).
    eexists _, _. exact Hkp.
  - rewrite repeat_length. vm_compute. reflexivity.
  - repeat constructor.
  - apply nth_error_repeat. destruct Hj as [<-|[<-|[]]]; apply Nat.ltb_lt; vm_compute; reflexivity.
  - discriminate.
Qed.
