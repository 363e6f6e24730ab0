(** C72: how many times a call runs the hash function. *)
From Coq Require Import ZArith.
From Verif Require Import Base ModelParams ModelCommons ModelCore ModelCoreFast ModelXmss SpecRfc SpecParams SpecApi SpecWork ModelCost ModelWork.
From Verif Require Import ProofWork ProofWork2 ProofWork3 ProofWork5 PropApi.
Local Existing Instance ex_env.

(** The counted program is the program: for every input, whatever happens. *)
Theorem C72_counting_changes_nothing : forall (E : Env) mt,
  (forall pk sk oid rnd, out (ref_keypair_work mt pk sk oid rnd) = keypair mt ref_core pk sk oid rnd) /\
  (forall sk sm smlen m, out (ref_sign_work mt sk sm smlen m) = sign mt ref_core sk sm smlen m) /\
  (forall c m mlen sm pk, out (open_work mt c m mlen sm pk) = sign_open mt c m mlen sm pk).
Proof. intros E mt. repeat split; intros; [apply work_keypair|apply work_sign|apply work_open]. Qed.
Print Assumptions C72_counting_changes_nothing.

(** Verification: whatever bytes the attacker sends, and even if the call runs into undefined
    behaviour, at most this many hash calls; none for an unknown OID. *)
Theorem C72_verification_bounded : forall (E : Env) mt c m mlen sm pk, a_core c ->
  (forall r, In r (rows mt) -> firstn 4 pk = toByte (r_oid r) 4 -> (hashes (open_work mt c m mlen sm pk) <= open_hashes r)%N) /\
  (bytes_ok (firstn 4 pk) -> (forall r, In r (rows mt) -> firstn 4 pk <> toByte (r_oid r) 4) -> hashes (open_work mt c m mlen sm pk) = 0%N).
Proof. intros E mt c m mlen sm pk Hc. split; [intros r Hr Ho; exact (open_hashes_max mt r Hr c m mlen sm pk Hc Ho)|exact (open_unknown mt c m mlen sm pk)]. Qed.
Print Assumptions C72_verification_bounded.
(** the same for any parameter structure given to the core directly *)
Theorem C72_core_verification_bounded : forall (E : Env) p m sm pk,
  (hashes (xmssmt_core_sign_open_w p m sm pk) <=
   1 + N.of_nat (p_d p) * (N.of_nat (wots_len p) * (3 * N.of_nat (wots_w p - 1)) + 4 * N.of_nat (wots_len p - 1) + 4 * N.of_nat (tree_height p)))%N.
Proof. intros E p m sm pk. exact (proj1 (w_open_max p m sm pk)). Qed.
Print Assumptions C72_core_verification_bounded.

(** Key generation: the same number of hash calls for every randomness and every buffer. *)
Theorem C72_keypair_hashes : forall (E : Env) mt r, In r (rows mt) -> forall pk sk rnd,
  (hashes (ref_keypair_work mt pk sk (r_oid r) rnd) <= tree_hashes r)%N /\
  (forall x, keypair mt ref_core pk sk (r_oid r) rnd = Ok x -> hashes (ref_keypair_work mt pk sk (r_oid r) rnd) = tree_hashes r).
Proof. exact (@keypair_hashes). Qed.
Print Assumptions C72_keypair_hashes.

(** Signing: bounded for every key and message; a refused call hashes nothing. *)
Theorem C72_sign_bounded : forall (E : Env) mt r, In r (rows mt) -> forall sk sm smlen m, firstn 4 sk = toByte (r_oid r) 4 ->
  (hashes (ref_sign_work mt sk sm smlen m) <= sign_hashes r)%N /\
  (forall o, sign mt ref_core sk sm smlen m = Ok o -> so_rc o = (-2)%Z -> hashes (ref_sign_work mt sk sm smlen m) = 0%N).
Proof. exact (@sign_hashes_max). Qed.
Print Assumptions C72_sign_bounded.

(** Signing takes as many hash calls as verifying the result leaves of a fixed total: what can
    be learnt from the number of hash calls of a sign call, anyone can learn from the signature. *)
Theorem C72_sign_effort_is_public : forall (E : Env) mt r, In r (rows mt) -> env_ok E -> forall c sk sm smlen m mbuf mlen,
  a_core c -> key_of r (sk_size r) sk -> (sk_index r sk + 1 < 2 ^ N.of_nat (r_h r))%N ->
  sig_size r + length m <= length sm -> sig_size r + length m <= length mbuf ->
  exists o, sign mt ref_core sk sm smlen m = Ok o /\ so_rc o = 0%Z /\
    (hashes (ref_sign_work mt sk sm smlen m) +
     hashes (open_work mt c mbuf mlen (signed_message o) (public_key r (sk_field r 2 sk) (sk_field r 3 sk))) = both_hashes r)%N.
Proof. exact (@sign_and_open). Qed.
Print Assumptions C72_sign_effort_is_public.
(** two keys that make the same signed message take the same number of hash calls *)
Theorem C72_same_signature_same_effort : forall (E : Env) mt r, In r (rows mt) -> env_ok E -> forall sk1 sk2 sm1 sm2 l1 l2 m o1 o2,
  key_of r (sk_size r) sk1 -> key_of r (sk_size r) sk2 -> (sk_index r sk1 + 1 < 2 ^ N.of_nat (r_h r))%N -> (sk_index r sk2 + 1 < 2 ^ N.of_nat (r_h r))%N ->
  sig_size r + length m <= length sm1 -> sig_size r + length m <= length sm2 ->
  sk_field r 2 sk1 = sk_field r 2 sk2 -> sk_field r 3 sk1 = sk_field r 3 sk2 ->
  sign mt ref_core sk1 sm1 l1 m = Ok o1 -> sign mt ref_core sk2 sm2 l2 m = Ok o2 -> signed_message o1 = signed_message o2 ->
  hashes (ref_sign_work mt sk1 sm1 l1 m) = hashes (ref_sign_work mt sk2 sm2 l2 m).
Proof.
  intros E mt r Hr HE sk1 sk2 sm1 sm2 l1 l2 m o1 o2 K1 K2 I1 I2 B1 B2 F2 F3 S1 S2 Hs.
  destruct (C72_sign_effort_is_public E mt r Hr HE ref_core sk1 sm1 l1 m sm1 0 (or_introl eq_refl) K1 I1 B1 B1) as (x1 & X1 & _ & Y1).
  destruct (C72_sign_effort_is_public E mt r Hr HE ref_core sk2 sm2 l2 m sm1 0 (or_introl eq_refl) K2 I2 B2 B1) as (x2 & X2 & _ & Y2).
  rewrite S1 in X1. injection X1 as <-. rewrite S2 in X2. injection X2 as <-. rewrite F2, F3, Hs in Y1. lia.
Qed.
Print Assumptions C72_same_signature_same_effort.

Example C72_applies : key_of ex_row (sk_size ex_row) (ex_sk 5) /\ (sk_index ex_row (ex_sk 5) + 1 < 2 ^ N.of_nat (r_h ex_row))%N /\
  sig_size ex_row + length [1; 2; 3]%N <= length (repeat 0%N 3000) /\
  chains ex_row = 67%N /\ leaf_hashes ex_row = 3346%N /\ tree_hashes ex_row = 3430396%N /\ open_hashes ex_row = 3320%N /\ both_hashes ex_row = 3433785%N.
Proof.
  split; [apply ex_sk_key; now left|]. split; [apply N.ltb_lt; vm_compute; reflexivity|]. split; [apply Nat.leb_le; vm_compute; reflexivity|].
  repeat split; vm_compute; reflexivity.
Qed.
(** with these a sign call and the verification of its result take 3433785 hash calls together,
    at most 3320 of them for the verification *)
Example C72_total : exists o, sign false ref_core (ex_sk 5) (repeat 0%N 3000) 0 [1; 2; 3]%N = Ok o /\
  let s := hashes (ref_sign_work false (ex_sk 5) (repeat 0%N 3000) 0 [1; 2; 3]%N) in
  let v := hashes (open_work false fast_core (repeat 0%N 3000) 0 (signed_message o) (public_key ex_row (sk_field ex_row 2 (ex_sk 5)) (sk_field ex_row 3 (ex_sk 5)))) in
  (s + v = 3433785 /\ v <= 3320)%N.
Proof.
  destruct C72_applies as (A1 & A2 & A3 & _).
  destruct (C72_sign_effort_is_public ex_env false ex_row ex_row_in ex_env_ok fast_core (ex_sk 5) (repeat 0%N 3000) 0 [1; 2; 3]%N (repeat 0%N 3000) 0 (or_intror eq_refl) A1 A2 A3 A3)
    as (o & B1 & _ & B2).
  exists o. split; [exact B1|]. cbv zeta. split; [rewrite B2; vm_compute; reflexivity|].
  apply (C72_verification_bounded ex_env false fast_core) with (r := ex_row); [now right|exact ex_row_in|].
  unfold public_key. apply ProofCore.firstn_app_len. now rewrite ProofUtils.toByte_length.
Qed.
