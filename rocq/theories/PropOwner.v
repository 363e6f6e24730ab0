(** Property theorems: a root belongs to one public key. *)
From Verif Require Import Base ModelUtils ModelParams ModelHash ModelCommons ModelCore ModelCoreFast ModelXmss SpecRfc SpecParams SpecApi SpecFast SpecSec SpecForge SpecOwner.
From Verif Require ProofOwner ProofMain ProofUi2 ProofToy ProofCore ProofUtils.
From Verif Require Import PropApi.
Local Existing Instance ex_env.

(** C69. Two signed messages (the same one or two, made by anybody), each accepted under one of
    two public keys (made by anybody) with the same root, of two parameter sets, of XMSS or
    XMSSMT, that use the same hash function: then it is the same parameter set and the same
    public key, or the two verifications hash two different strings to the same value.  So
    neither the OID nor the seed in a public key can be exchanged. *)
Theorem C69_root_fixes_the_public_key : forall E : Env, env_ok E ->
  forall mt1 mt2 r1 r2 c1 c2 mb1 mb2 l1 l2 sm1 sm2 pk1 pk2 o1 o2, In r1 (rows mt1) -> In r2 (rows mt2) -> r_fn r1 = r_fn r2 -> r_n r1 = r_n r2 ->
  a_core c1 -> a_core c2 -> key_of r1 (pk_size r1) pk1 -> key_of r2 (pk_size r2) pk2 ->
  sig_size r1 <= length sm1 -> sig_size r2 <= length sm2 -> bytes_ok sm1 -> bytes_ok sm2 -> length sm1 <= length mb1 -> length sm2 <= length mb2 ->
  sign_open mt1 c1 mb1 l1 sm1 pk1 = Ok o1 -> oo_rc o1 = 0%Z -> sign_open mt2 c2 mb2 l2 sm2 pk2 = Ok o2 -> oo_rc o2 = 0%Z ->
  let rt := firstn (r_n r1) (skipn 4 pk1) in firstn (r_n r2) (skipn 4 pk2) = rt ->
  let seed1 := skipn (4 + r_n r1) pk1 in let seed2 := skipn (4 + r_n r2) pk2 in
  r1 = r2 /\ pk1 = pk2 \/
  strings_collide (row_hash r1) (strings (row_sp r1) seed1 (verify_queries (row_sp r1) seed1 rt (firstn (sig_size r1) sm1) (skipn (sig_size r1) sm1)))
                                (strings (row_sp r2) seed2 (verify_queries (row_sp r2) seed2 rt (firstn (sig_size r2) sm2) (skipn (sig_size r2) sm2))).
Proof. exact (@ProofOwner.root_fixes). Qed.
Print Assumptions C69_root_fixes_the_public_key.

(** C69, for a key pair made by the library (with either core): a public key with its root
    and another OID or another seed accepts no signed message at all, unless that verification
    collides with the last hash of key generation. *)
Theorem C69_root_of_a_made_key : forall E : Env, env_ok E ->
  forall mt1 r1 core lim size rnd pk0 sk0 pk1 sk1 mt2 r2 c mbuf mlen sm pk2 oo, In r1 (rows mt1) -> signer r1 core lim size -> (forall i, (rnd i < 256)%N) ->
  length pk0 = 4 + pk_size r1 -> length sk0 = 4 + size -> bytes_ok sk0 -> keypair mt1 core pk0 sk0 (r_oid r1) rnd = Ok (0%Z, pk1, sk1) ->
  In r2 (rows mt2) -> r_fn r1 = r_fn r2 -> r_n r1 = r_n r2 -> a_core c -> key_of r2 (pk_size r2) pk2 ->
  sig_size r2 <= length sm -> bytes_ok sm -> length sm <= length mbuf ->
  sign_open mt2 c mbuf mlen sm pk2 = Ok oo -> oo_rc oo = 0%Z ->
  let rt := firstn (r_n r1) (skipn 4 pk1) in firstn (r_n r2) (skipn 4 pk2) = rt ->
  let n := r_n r1 in let sks := map rnd (seq 0 n) in let seed1 := map rnd (seq (2 * n) n) in let seed2 := skipn (4 + r_n r2) pk2 in
  r1 = r2 /\ pk1 = pk2 \/
  strings_collide (row_hash r1) (strings (row_sp r1) seed1 [root_query (row_sp r1) seed1 sks])
                                (strings (row_sp r2) seed2 (verify_queries (row_sp r2) seed2 rt (firstn (sig_size r2) sm) (skipn (sig_size r2) sm))).
Proof. exact (@ProofOwner.made_root_fixes). Qed.
Print Assumptions C69_root_of_a_made_key.

(** The hypotheses can be met by two different public keys, of two parameter sets, if the hash
    function is bad enough: two generated keys with the same root, each with a signed message. *)
Definition ex_row16 : row := nth 1 xmss_rows ex_row.
Definition ex_rnd' : nat -> N := fun i => if i <? 64 then ex_rnd i else 77%N.
Example C69_applies : exists pk1 sk1 pk2 sk2 sm1 sm2 o1 o2,
  keypair false ref_core (repeat 0%N 68) (repeat 0%N 136) (r_oid ex_row) ex_rnd = Ok (0%Z, pk1, sk1) /\
  keypair false ref_core (repeat 0%N 68) (repeat 0%N 136) (r_oid ex_row16) ex_rnd' = Ok (0%Z, pk2, sk2) /\
  In ex_row (rows false) /\ In ex_row16 (rows false) /\ r_fn ex_row = r_fn ex_row16 /\ r_n ex_row = r_n ex_row16 /\ r_h ex_row <> r_h ex_row16 /\
  key_of ex_row (pk_size ex_row) pk1 /\ key_of ex_row16 (pk_size ex_row16) pk2 /\ pk1 <> pk2 /\
  sign_open false ref_core (repeat 0%N 3000) 0 sm1 pk1 = Ok o1 /\ oo_rc o1 = 0%Z /\ sign_open false fast_core (repeat 0%N 3000) 0 sm2 pk2 = Ok o2 /\ oo_rc o2 = 0%Z /\
  firstn (r_n ex_row16) (skipn 4 pk2) = firstn (r_n ex_row) (skipn 4 pk1).
Proof.
  assert (H16 : In ex_row16 (rows false)) by (right; left; reflexivity).
  assert (Hb' : forall i, (ex_rnd' i < 256)%N) by (intros i; unfold ex_rnd'; destruct (i <? 64); [apply ex_rnd_bytes|reflexivity]).
  destruct (ProofMain.keypair_exact ex_env_ok false ex_row (repeat 0%N 68) (repeat 0%N 136) ex_rnd ex_row_in ex_rnd_bytes eq_refl eq_refl) as (a1 & b1 & ct1 & d1 & Hf1 & Hc1 & Hk1 & Hkp1).
  destruct (ProofMain.keypair_exact ex_env_ok false ex_row16 (repeat 0%N 68) (repeat 0%N 136) ex_rnd' H16 Hb' eq_refl eq_refl) as (a2 & b2 & ct2 & d2 & Hf2 & Hc2 & Hk2 & Hkp2).
  destruct (ProofUi2.honest_opens ex_env_ok false ex_row ex_row_in a1 b1 ct1 d1 Hf1 Hc1 ref_core 3 [1; 2]%N (repeat 0%N 3000) 0 (or_introl eq_refl) ltac:(reflexivity) ltac:(repeat constructor)) as (o1 & O1 & R1 & _); [apply Nat.leb_le; vm_compute; reflexivity|].
  destruct (ProofUi2.honest_opens ex_env_ok false ex_row16 H16 a2 b2 ct2 d2 Hf2 Hc2 fast_core 30000 [9]%N (repeat 0%N 3000) 0 (or_intror eq_refl) ltac:(reflexivity) ltac:(repeat constructor)) as (o2 & O2 & R2 & _); [apply Nat.leb_le; vm_compute; reflexivity|].
  eexists _, _, _, _, _, _, o1, o2. split; [exact Hkp1|]. split; [exact Hkp2|]. split; [exact ex_row_in|]. split; [exact H16|]. split; [reflexivity|]. split; [reflexivity|]. split; [discriminate|].
  split; [exact (ProofUi2.pk_is_key ex_row a1 b1 ct1 d1 Hf1)|]. split; [exact (ProofUi2.pk_is_key ex_row16 a2 b2 ct2 d2 Hf2)|].
  split; [intros He; apply (f_equal (fun l => nth 3 l 0%N)) in He; cbn in He; discriminate|]. split; [exact O1|]. split; [exact R1|]. split; [exact O2|]. split; [exact R2|].
  apply (f_equal (fun x => fst (fst (fst x)))) in Hk1, Hk2. assert (A1 : map ex_rnd (seq 0 32) = a1) by exact Hk1. assert (A2 : map ex_rnd' (seq 0 32) = a2) by exact Hk2. clear Hk1 Hk2.
  destruct Hf1 as [(La1 & _ & Lc1 & _) (Ba1 & _)]. destruct Hf2 as [(La2 & _ & Lc2 & _) (Ba2 & _)].
  assert (T1 : ct1 = a1) by (rewrite Hc1; exact (ProofToy.toy_node (fun _ => 0%N) ex_row eq_refl eq_refl a1 d1 La1 Ba1 _ _ _ _)).
  assert (T2 : ct2 = a2) by (rewrite Hc2; exact (ProofToy.toy_node (fun _ => 0%N) ex_row16 eq_refl eq_refl a2 d2 La2 Ba2 _ _ _ _)).
  assert (Ea : a2 = a1) by (rewrite <- A1, <- A2; reflexivity).
  assert (Q : forall o rt d, length rt = 32 -> firstn 32 (skipn 4 (toByte o 4 ++ rt ++ d)) = rt) by (intros o rt d Lr; rewrite (ProofCore.skipn_app_len (toByte o 4) _ 4) by (now rewrite ProofUtils.toByte_length); apply ProofCore.firstn_app_len; now rewrite Lr).
  transitivity ct2; [exact (Q _ _ _ Lc2)|]. transitivity ct1; [congruence|symmetry; exact (Q _ _ _ Lc1)].
Qed.
