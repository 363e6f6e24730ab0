(** Property theorems about the public API.  [E] ranges over all environments: any
    functions SHA-256/SHA-512 with the right digest size, any contents of uninitialised
    storage.  [mt] selects xmss_* or xmssmt_*, [r] ranges over all 77 parameter sets. *)
From Coq Require Import String.
From Verif Require Import Base ModelCore ModelCommons ModelXmss SpecRfc SpecParams SpecApi ProofToy ProofMain ProofMain2 ProofMain3.

(** the parameter sets and environment of the non-vacuity examples *)
Definition ex_row : row := mkRow false 1 "SHA2" SHA2 32 10 1.        (* XMSS-SHA2_10_256 *)
Definition ex_mt_row : row := mkRow true 3 "SHA2" SHA2 32 40 2.      (* XMSSMT-SHA2_40/2_256 *)
Definition ex_env : Env := zero_env.
Definition ex_rnd (i : nat) : N := (N.of_nat i mod 256)%N.
Local Existing Instance ex_env.
Definition ex_call : call := mkCall [1; 2; 3]%N (repeat 7%N 3000) 0.

Example ex_row_in : In ex_row (rows false).
Proof. now left. Qed.
Example ex_mt_row_in : In ex_mt_row (rows true).
Proof. do 2 right. now left. Qed.
Example ex_env_ok : env_ok ex_env.
Proof. exact zero_env_ok. Qed.
Example ex_rnd_bytes : forall i, (ex_rnd i < 256)%N.
Proof. intros i. now apply N.mod_lt. Qed.
Example ex_sizes : sig_size ex_row = 2500 /\ sk_size ex_row = 132 /\ pk_size ex_row = 64 /\ idx_size ex_row = 4 /\ idx_size ex_mt_row = 5.
Proof. repeat split. Qed.
(** a key at index 5, one at the last index and one past it *)
Definition ex_sk (i : N) : bytes := secret_key ex_row i (repeat 9%N 32) (repeat 8%N 32) (repeat 9%N 32) (repeat 6%N 32).
Definition ex_pk : bytes := public_key ex_row (repeat 9%N 32) (repeat 6%N 32).
Example ex_sk_key : forall i, In i [5; 1023; 1024]%N -> key_of ex_row (sk_size ex_row) (ex_sk i) /\ sk_index ex_row (ex_sk i) = i.
Proof.
  assert (H : forallb (fun i => (length (ex_sk i) =? 4 + sk_size ex_row) && (if list_eq_dec N.eq_dec (firstn 4 (ex_sk i)) (toByte 1 4) then true else false)
     && forallb (fun x => N.ltb x 256) (ex_sk i) && N.eqb (sk_index ex_row (ex_sk i)) i) [5; 1023; 1024]%N = true) by (vm_compute; reflexivity).
  intros i Hi. rewrite forallb_forall in H. specialize (H i Hi). repeat (apply andb_prop in H; destruct H as [H ?]).
  split; [|now apply N.eqb_eq]. split; [now apply Nat.eqb_eq|]. split.
  - destruct (list_eq_dec N.eq_dec (firstn 4 (ex_sk i)) (toByte 1 4)); [assumption|discriminate].
  - apply Forall_forall. intros x Hx. apply N.ltb_lt. match goal with Hb : forallb _ _ = true |- _ => rewrite forallb_forall in Hb; now apply Hb end.
Qed.
Example ex_pk_key : key_of ex_row (pk_size ex_row) ex_pk.
Proof.
  split; [reflexivity|]. split; [reflexivity|]. apply Forall_forall. intros x Hx. apply N.ltb_lt.
  assert (H : forallb (fun x => N.ltb x 256) ex_pk = true) by (vm_compute; reflexivity). rewrite forallb_forall in H. now apply H.
Qed.

(** C08. Key generation is RFC 8391 key generation. *)
Theorem C08_keypair_is_rfc8391 : forall E : Env, env_ok E -> forall mt r pk sk rnd, In r (rows mt) ->
  4 + pk_size r <= length pk -> 4 + sk_size r <= length sk ->
  let n := r_n r in
  let sk_seed := map rnd (seq 0 n) in
  let sk_prf := map rnd (seq n n) in
  let pub_seed := map rnd (seq (2 * n) n) in
  let root := mt_root (row_sp r) sk_seed pub_seed in
  keypair mt ref_core pk sk (r_oid r) rnd =
  Ok (0%Z, public_key r root pub_seed ++ skipn (4 + pk_size r) pk,
           secret_key r 0 sk_seed sk_prf root pub_seed ++ skipn (4 + sk_size r) sk).
Proof. exact (@keypair_rfc). Qed.
Print Assumptions C08_keypair_is_rfc8391.
Example C08_applies : exists pk sk, keypair false ref_core (repeat 0%N 68) (repeat 0%N 136) (r_oid ex_row) ex_rnd = Ok (0%Z, pk, sk).
Proof. pose proof (C08_keypair_is_rfc8391 ex_env ex_env_ok false ex_row (repeat 0%N 68) (repeat 0%N 136) ex_rnd ex_row_in) as H. rewrite H; [eauto| |]; apply Nat.leb_le; vm_compute; reflexivity. Qed.

(** C01. Any signature below the last index, after any history of signatures, opens to
    the exact message (opened by either core's verifier). *)
Theorem C01_signed_messages_open : forall E : Env, env_ok E -> forall mt r rnd pk0 sk0 cs m sm smlen mbuf mlen c,
  In r (rows mt) -> (forall i, (rnd i < 256)%N) ->
  length pk0 = 4 + pk_size r -> length sk0 = 4 + sk_size r -> a_core c ->
  (N.of_nat (length cs) + 1 < 2 ^ N.of_nat (r_h r))%N -> Forall (call_ok r) cs ->
  bytes_ok m -> sig_size r + length m <= length sm -> sig_size r + length m <= length mbuf ->
  exists pk sk sk' os o oo,
    keypair mt ref_core pk0 sk0 (r_oid r) rnd = Ok (0%Z, pk, sk) /\
    sign_run mt ref_core sk cs = Ok (sk', os) /\
    sign mt ref_core sk' sm smlen m = Ok o /\ so_rc o = 0%Z /\ so_smlen o = sig_size r + length m /\
    sign_open mt c mbuf mlen (signed_message o) pk = Ok oo /\
    oo_rc oo = 0%Z /\ oo_mlen oo = length m /\ firstn (length m) (oo_m oo) = m.
Proof. exact (@sign_then_open). Qed.
Print Assumptions C01_signed_messages_open.
Example ex_calls_ok : forall k, Forall (call_ok ex_row) (repeat ex_call k).
Proof. intros k. apply Forall_forall. intros x Hx. apply repeat_spec in Hx. subst. apply Nat.leb_le. vm_compute. reflexivity. Qed.
Example ex_msg_ok : bytes_ok [1; 2; 3]%N.
Proof. repeat constructor. Qed.
Example ex_fits : sig_size ex_row + length [1; 2; 3]%N <= length (repeat 7%N 3000).
Proof. apply Nat.leb_le. vm_compute. reflexivity. Qed.
Example ex_pk_len : length (repeat 0%N 68) = 4 + pk_size ex_row.
Proof. vm_compute. reflexivity. Qed.
Example ex_sk_len : length (repeat 0%N 136) = 4 + sk_size ex_row.
Proof. vm_compute. reflexivity. Qed.
Example ex_five : (N.of_nat (length (repeat ex_call 5)) + 1 < 2 ^ N.of_nat (r_h ex_row))%N.
Proof. vm_compute. reflexivity. Qed.
Example C01_applies : exists pk sk sk' os o oo,
    keypair false ref_core (repeat 0%N 68) (repeat 0%N 136) (r_oid ex_row) ex_rnd = Ok (0%Z, pk, sk) /\
    sign_run false ref_core sk (repeat ex_call 5) = Ok (sk', os) /\
    sign false ref_core sk' (repeat 7%N 3000) 0 [1; 2; 3]%N = Ok o /\ so_rc o = 0%Z /\ so_smlen o = sig_size ex_row + length [1; 2; 3]%N /\
    sign_open false fast_core (repeat 7%N 3000) 0 (signed_message o) pk = Ok oo /\
    oo_rc oo = 0%Z /\ oo_mlen oo = length [1; 2; 3]%N /\ firstn (length [1; 2; 3]%N) (oo_m oo) = [1; 2; 3]%N.
Proof.
  exact (C01_signed_messages_open ex_env ex_env_ok false ex_row ex_rnd (repeat 0%N 68) (repeat 0%N 136) (repeat ex_call 5) [1; 2; 3]%N (repeat 7%N 3000) 0 (repeat 7%N 3000) 0 fast_core
    ex_row_in ex_rnd_bytes ex_pk_len ex_sk_len (or_intror eq_refl) ex_five (ex_calls_ok 5) ex_msg_ok ex_fits ex_fits).
Qed.

(** C06. The signature bytes are the RFC 8391 signature of the key, index and message. *)
Theorem C06_signatures_are_rfc8391 : forall E : Env, env_ok E -> forall mt r sk sm smlen m, In r (rows mt) ->
  key_of r (sk_size r) sk -> (sk_index r sk + 1 < 2 ^ N.of_nat (r_h r))%N -> sig_size r + length m <= length sm ->
  exists o, sign mt ref_core sk sm smlen m = Ok o /\ so_rc o = 0%Z /\ so_smlen o = sig_size r + length m /\
    signed_message o = mt_sign (row_sp r) (sk_field r 0 sk) (sk_field r 1 sk) (sk_field r 2 sk) (sk_field r 3 sk) (sk_index r sk) m ++ m.
Proof. exact (@sign_rfc). Qed.
Print Assumptions C06_signatures_are_rfc8391.
Example C06_applies : key_of ex_row (sk_size ex_row) (ex_sk 5) /\ (sk_index ex_row (ex_sk 5) + 1 < 2 ^ N.of_nat (r_h ex_row))%N /\
  sig_size ex_row + length [1; 2; 3]%N <= length (repeat 0%N 2503).
Proof. split; [apply ex_sk_key; now left|]. split; [vm_compute; reflexivity|apply Nat.leb_le; vm_compute; reflexivity]. Qed.

(** C05. Only the index changes, by exactly one. *)
Theorem C05_sign_changes_only_index : forall E : Env, env_ok E -> forall mt r sk sm smlen m, In r (rows mt) ->
  key_of r (sk_size r) sk -> (sk_index r sk + 1 < 2 ^ N.of_nat (r_h r))%N -> sig_size r + length m <= length sm ->
  exists o, sign mt ref_core sk sm smlen m = Ok o /\ so_rc o = 0%Z /\
    length (so_sk o) = length sk /\ sk_index r (so_sk o) = (sk_index r sk + 1)%N /\
    firstn 4 (so_sk o) = firstn 4 sk /\ skipn (4 + idx_size r) (so_sk o) = skipn (4 + idx_size r) sk.
Proof. exact (@sign_key_update). Qed.
Print Assumptions C05_sign_changes_only_index.
(* non-vacuity: C06_applies has the same hypotheses *)

(** C03. Below the last index the k-th call carries index k... *)
Theorem C03_indices_count_up : forall E : Env, env_ok E -> forall mt r rnd pk0 sk0 cs pk sk, In r (rows mt) ->
  (forall i, (rnd i < 256)%N) -> length pk0 = 4 + pk_size r -> length sk0 = 4 + sk_size r ->
  keypair mt ref_core pk0 sk0 (r_oid r) rnd = Ok (0%Z, pk, sk) ->
  (N.of_nat (length cs) < 2 ^ N.of_nat (r_h r))%N -> Forall (call_ok r) cs ->
  exists sk' os, sign_run mt ref_core sk cs = Ok (sk', os) /\ length os = length cs /\
    forall k o, nth_error os k = Some o -> so_rc o = 0%Z /\ sm_index r (so_sm o) = N.of_nat k.
Proof. exact (@indices_count). Qed.
Print Assumptions C03_indices_count_up.
(** ... and in a history of any length no two successful calls carry the same index, for
    every parameter set whose index field is wider than the tree is high (h <> 40). *)
Theorem C03_no_index_reuse : forall E : Env, env_ok E -> forall mt r rnd pk0 sk0 cs pk sk, In r (rows mt) ->
  r_h r < 8 * idx_size r -> (forall i, (rnd i < 256)%N) ->
  length pk0 = 4 + pk_size r -> length sk0 = 4 + sk_size r ->
  keypair mt ref_core pk0 sk0 (r_oid r) rnd = Ok (0%Z, pk, sk) -> Forall (call_ok r) cs ->
  exists sk' os, sign_run mt ref_core sk cs = Ok (sk', os) /\ length os = length cs /\
    forall i j oi oj, i < j -> nth_error os i = Some oi -> nth_error os j = Some oj ->
      so_rc oi = 0%Z -> so_rc oj = 0%Z -> sm_index r (so_sm oi) <> sm_index r (so_sm oj).
Proof. exact (@no_reuse). Qed.
Print Assumptions C03_no_index_reuse.

(** C04. For these sets call number k (from 0) succeeds iff k < 2^h, in any history; the
    last successful call carries an index field of all ones. *)
Theorem C04_exhaustion_is_final : forall E : Env, env_ok E -> forall mt r rnd pk0 sk0 cs pk sk, In r (rows mt) ->
  r_h r < 8 * idx_size r -> (forall i, (rnd i < 256)%N) ->
  length pk0 = 4 + pk_size r -> length sk0 = 4 + sk_size r ->
  keypair mt ref_core pk0 sk0 (r_oid r) rnd = Ok (0%Z, pk, sk) -> Forall (call_ok r) cs ->
  exists sk' os, sign_run mt ref_core sk cs = Ok (sk', os) /\ length os = length cs /\
    (forall k o, nth_error os k = Some o ->
       ((N.of_nat k < 2 ^ N.of_nat (r_h r))%N -> so_rc o = 0%Z) /\
       ((N.of_nat k + 1 < 2 ^ N.of_nat (r_h r))%N -> sm_index r (so_sm o) = N.of_nat k) /\
       ((N.of_nat k + 1 = 2 ^ N.of_nat (r_h r))%N -> sm_index r (so_sm o) = (256 ^ N.of_nat (idx_size r) - 1)%N) /\
       ((2 ^ N.of_nat (r_h r) <= N.of_nat k)%N -> so_rc o = (-2)%Z)).
Proof. exact (@whole_life). Qed.
Print Assumptions C04_exhaustion_is_final.
Example C04_applies : exists pk sk, keypair false ref_core (repeat 0%N 68) (repeat 0%N 136) (r_oid ex_row) ex_rnd = Ok (0%Z, pk, sk) /\
  exists sk' os, sign_run false ref_core sk (repeat ex_call 1030) = Ok (sk', os) /\
    exists o, nth_error os 1027 = Some o /\ so_rc o = (-2)%Z.
Proof.
  destruct C08_applies as [pk [sk Hk]]. exists pk, sk. split; [exact Hk|].
  assert (Hw : r_h ex_row < 8 * idx_size ex_row) by (apply Nat.ltb_lt; vm_compute; reflexivity).
  destruct (C04_exhaustion_is_final ex_env ex_env_ok false ex_row ex_rnd (repeat 0%N 68) (repeat 0%N 136) (repeat ex_call 1030) pk sk
    ex_row_in Hw ex_rnd_bytes ex_pk_len ex_sk_len Hk (ex_calls_ok 1030)) as [sk' [os [H1 [H2 H3]]]].
  exists sk', os. split; [exact H1|]. destruct (nth_error os 1027) as [o|] eqn:Eo.
    - exists o. split; [reflexivity|]. apply (H3 1027 o Eo). vm_compute. discriminate.
    - apply nth_error_None in Eo. rewrite H2, repeat_length in Eo. lia.
Qed.

(** C04, C03 refuted for the 40-level sets: sign never refuses, however many calls, and
    the indices start over. *)
Theorem C04_refuted_height_40 : forall E : Env, env_ok E -> forall mt r rnd pk0 sk0 cs pk sk, In r (rows mt) ->
  r_h r = 8 * idx_size r -> (forall i, (rnd i < 256)%N) ->
  length pk0 = 4 + pk_size r -> length sk0 = 4 + sk_size r ->
  keypair mt ref_core pk0 sk0 (r_oid r) rnd = Ok (0%Z, pk, sk) -> Forall (call_ok r) cs ->
  exists sk' os, sign_run mt ref_core sk cs = Ok (sk', os) /\ length os = length cs /\
    forall k o, nth_error os k = Some o -> so_rc o = 0%Z /\
      ((N.of_nat k mod 2 ^ N.of_nat (r_h r) + 1 < 2 ^ N.of_nat (r_h r))%N -> sm_index r (so_sm o) = (N.of_nat k mod 2 ^ N.of_nat (r_h r))%N).
Proof. exact (@never_exhausts). Qed.
Print Assumptions C04_refuted_height_40.
Example C04_refuted_applies : In ex_mt_row (rows true) /\ r_h ex_mt_row = 8 * idx_size ex_mt_row.
Proof. split; [exact ex_mt_row_in|reflexivity]. Qed.

(** C02. The signature made with the last index does not depend on the secret key at all... *)
Theorem C02_last_signature_ignores_key : forall E : Env, env_ok E -> forall mt r sk1 sk2 sm1 sm2 l1 l2 m, In r (rows mt) ->
  key_of r (sk_size r) sk1 -> key_of r (sk_size r) sk2 ->
  (sk_index r sk1 + 1 = 2 ^ N.of_nat (r_h r))%N -> (sk_index r sk2 + 1 = 2 ^ N.of_nat (r_h r))%N ->
  sig_size r + length m <= length sm1 -> sig_size r + length m <= length sm2 ->
  exists o1 o2, sign mt ref_core sk1 sm1 l1 m = Ok o1 /\ sign mt ref_core sk2 sm2 l2 m = Ok o2 /\
    so_rc o1 = 0%Z /\ so_rc o2 = 0%Z /\ signed_message o1 = signed_message o2.
Proof. exact (@last_signature_keyless). Qed.
Print Assumptions C02_last_signature_ignores_key.
Example C02_applies : key_of ex_row (sk_size ex_row) (ex_sk 1023) /\ (sk_index ex_row (ex_sk 1023) + 1 = 2 ^ N.of_nat (r_h ex_row))%N.
Proof. destruct (ex_sk_key 1023) as [H1 H2]; [right; now left|]. split; [exact H1|]. rewrite H2. reflexivity. Qed.
(** ... and there are hash functions for which it is reported as successful but does not open. *)
Theorem C02_refuted : exists E : Env, env_ok E /\ forall mt r, In r (rows mt) -> r_fn r = SHA2 -> r_n r = 32 ->
  forall rnd pk0 sk0 cs m sm smlen mbuf mlen, (forall i, (rnd i < 256)%N) -> map rnd (seq 0 32) <> repeat 0%N 32 ->
  length pk0 = 4 + pk_size r -> length sk0 = 4 + sk_size r ->
  (N.of_nat (length cs) + 1 = 2 ^ N.of_nat (r_h r))%N -> Forall (call_ok r) cs ->
  bytes_ok m -> sig_size r + length m <= length sm -> sig_size r + length m <= length mbuf ->
  exists pk sk sk' os o oo,
    keypair mt ref_core pk0 sk0 (r_oid r) rnd = Ok (0%Z, pk, sk) /\
    sign_run mt ref_core sk cs = Ok (sk', os) /\
    sign mt ref_core sk' sm smlen m = Ok o /\ so_rc o = 0%Z /\
    sign_open mt ref_core mbuf mlen (signed_message o) pk = Ok oo /\ oo_rc oo = (-1)%Z.
Proof. exact (ex_intro _ zero_env (conj zero_env_ok last_signature_fails)). Qed.
Print Assumptions C02_refuted.
Example C02_refuted_applies : exists cs : list call, (N.of_nat (length cs) + 1 = 2 ^ N.of_nat (r_h ex_row))%N /\ Forall (call_ok ex_row) cs /\ map ex_rnd (seq 0 32) <> repeat 0%N 32.
Proof.
  exists (repeat ex_call 1023). split; [rewrite repeat_length; vm_compute; reflexivity|]. split; [apply ex_calls_ok|]. vm_compute. discriminate.
Qed.

(** C07, C18, C20. Opening any signed message of at least signature length terminates
    without undefined behaviour, decides RFC 8391 validity, returns the message or zeros,
    and leaves the buffer beyond smlen alone. *)
Theorem C07_open_decides_rfc8391 : forall E : Env, env_ok E -> forall mt r c mbuf mlen sm pk, In r (rows mt) -> a_core c ->
  key_of r (pk_size r) pk -> sig_size r <= length sm -> bytes_ok sm -> length sm <= length mbuf ->
  let msg := skipn (sig_size r) sm in
  exists o, sign_open mt c mbuf mlen sm pk = Ok o /\ length (oo_m o) = length mbuf /\
    (mt_verify (row_sp r) (firstn (r_n r) (skipn 4 pk)) (skipn (4 + r_n r) pk) (firstn (sig_size r) sm) msg = true ->
       oo_rc o = 0%Z /\ oo_mlen o = length msg /\ firstn (length msg) (oo_m o) = msg) /\
    (mt_verify (row_sp r) (firstn (r_n r) (skipn 4 pk)) (skipn (4 + r_n r) pk) (firstn (sig_size r) sm) msg = false ->
       oo_rc o = (-1)%Z /\ oo_mlen o = 0 /\ firstn (length msg) (oo_m o) = repeat 0%N (length msg)) /\
    skipn (length sm) (oo_m o) = skipn (length sm) mbuf.
Proof. exact (@open_decides). Qed.
Print Assumptions C07_open_decides_rfc8391.
(** both outcomes occur: C01_applies is an accepted input, this one is rejected *)
Example C07_rejects : mt_verify (row_sp ex_row) (firstn 32 (skipn 4 ex_pk)) (skipn (4 + r_n ex_row) ex_pk)
   (firstn (sig_size ex_row) (repeat 0%N (sig_size ex_row) ++ [5; 6]%N)) (skipn (sig_size ex_row) (repeat 0%N (sig_size ex_row) ++ [5; 6]%N)) = false.
Proof.
  apply (reject_somewhere false ex_row ex_row_in eq_refl eq_refl ex_pk [5; 6]%N); [exact ex_pk_key|vm_compute; discriminate|repeat constructor].
Qed.

(** C21 refuted: after any rejection of a message no longer than a signature the output
    buffer still holds the complete rejected message, at offset sig_bytes. *)
Theorem C21_refuted : forall E : Env, env_ok E -> forall mt r c mbuf mlen sm pk o, In r (rows mt) -> a_core c ->
  key_of r (pk_size r) pk -> sig_size r <= length sm -> bytes_ok sm -> length sm <= length mbuf ->
  let msg := skipn (sig_size r) sm in
  sign_open mt c mbuf mlen sm pk = Ok o -> oo_rc o = (-1)%Z -> length msg <= sig_size r ->
  firstn (length msg) (skipn (sig_size r) (oo_m o)) = msg.
Proof. exact (@open_leaks). Qed.
Print Assumptions C21_refuted.
Example C21_applies : exists o, sign_open false ref_core (repeat 3%N 2502) 0 (repeat 0%N (sig_size ex_row) ++ [5; 6]%N) ex_pk = Ok o /\ oo_rc o = (-1)%Z /\
  firstn 2 (skipn (sig_size ex_row) (oo_m o)) = [5; 6]%N.
Proof.
  destruct (C07_open_decides_rfc8391 ex_env ex_env_ok false ex_row ref_core (repeat 3%N 2502) 0 (repeat 0%N (sig_size ex_row) ++ [5; 6]%N) ex_pk ex_row_in (or_introl eq_refl) ex_pk_key) as [o [Ho [_ [_ [Hf _]]]]].
  - rewrite app_length, repeat_length. lia.
  - apply Forall_app. split; [apply zeros_ok|repeat constructor].
  - apply Nat.leb_le. vm_compute. reflexivity.
  - exists o. split; [exact Ho|]. specialize (Hf C07_rejects). split; [apply Hf|].
    apply (C21_refuted ex_env ex_env_ok false ex_row ref_core (repeat 3%N 2502) 0 (repeat 0%N (sig_size ex_row) ++ [5; 6]%N) ex_pk o ex_row_in (or_introl eq_refl) ex_pk_key).
    + rewrite app_length, repeat_length. lia.
    + apply Forall_app. split; [apply zeros_ok|repeat constructor].
    + apply Nat.leb_le. vm_compute. reflexivity.
    + exact Ho.
    + apply Hf.
    + apply Nat.leb_le. vm_compute. reflexivity.
Qed.

(** C22. Signing with any key content is defined, keeps the key well formed, and leaves the
    output buffer beyond the signed message alone. *)
Theorem C22_sign_memory_safe : forall E : Env, env_ok E -> forall mt r sk sm smlen m, In r (rows mt) ->
  key_of r (sk_size r) sk -> sig_size r + length m <= length sm ->
  exists o, sign mt ref_core sk sm smlen m = Ok o /\ (so_rc o = 0%Z \/ so_rc o = (-2)%Z) /\ key_of r (sk_size r) (so_sk o) /\
    length (so_sm o) = length sm /\ skipn (sig_size r + length m) (so_sm o) = skipn (sig_size r + length m) sm.
Proof. exact (@sign_safe). Qed.
Print Assumptions C22_sign_memory_safe.
(* non-vacuity: C06_applies, C02_applies *)

(** C44. A refusing call has wiped the key; C45 refuted (reference core): it has also
    written the message into the output buffer and set *smlen. *)
Theorem C44_refused_key_is_wiped : forall E : Env, env_ok E -> forall mt r sk sm smlen m o, In r (rows mt) ->
  key_of r (sk_size r) sk -> sig_size r + length m <= length sm ->
  sign mt ref_core sk sm smlen m = Ok o -> so_rc o = (-2)%Z ->
  so_sk o = firstn 4 sk ++ repeat 255%N (idx_size r) ++ repeat 0%N (4 * r_n r) /\
  so_sm o = firstn (sig_size r) sm ++ m ++ skipn (sig_size r + length m) sm /\ so_smlen o = sig_size r + length m.
Proof. exact (@sign_refused). Qed.
Print Assumptions C44_refused_key_is_wiped.
Example C44_applies : exists o, sign false ref_core (ex_sk 1024) (repeat 7%N 3000) 0 [1]%N = Ok o /\ so_rc o = (-2)%Z /\ so_smlen o <> 0.
Proof.
  destruct (ex_sk_key 1024) as [H1 H2]; [do 2 right; now left|].
  destruct (C22_sign_memory_safe ex_env ex_env_ok false ex_row (ex_sk 1024) (repeat 7%N 3000) 0 [1]%N ex_row_in H1) as [o [Ho _]]; [apply Nat.leb_le; vm_compute; reflexivity|].
  exists o. split; [exact Ho|]. 
  rewrite (ProofApi.sign_exhausted_row false ex_row ex_row_in (ex_sk 1024) H1) in Ho; [|rewrite H2; vm_compute; discriminate|apply Nat.leb_le; vm_compute; reflexivity].
  injection Ho as <-. split; [reflexivity|]. vm_compute. discriminate.
Qed.

(** C45 refuted (reference core): every call on an exhausted key returns -2 after writing
    the message behind the signature area and setting *smlen to the full length. *)
Theorem C45_refuted : forall E : Env, env_ok E -> forall mt r sk sm smlen m, In r (rows mt) ->
  key_of r (sk_size r) sk -> (2 ^ N.of_nat (r_h r) <= sk_index r sk)%N -> sig_size r + length m <= length sm ->
  exists o, sign mt ref_core sk sm smlen m = Ok o /\ so_rc o = (-2)%Z /\
    so_smlen o = sig_size r + length m /\ firstn (length m) (skipn (sig_size r) (so_sm o)) = m.
Proof. intros E _. exact (@refused_writes E). Qed.
Print Assumptions C45_refuted.
Example C45_applies : key_of ex_row (sk_size ex_row) (ex_sk 1024) /\ (2 ^ N.of_nat (r_h ex_row) <= sk_index ex_row (ex_sk 1024))%N.
Proof. destruct (ex_sk_key 1024) as [H1 H2]; [do 2 right; now left|]. split; [exact H1|]. rewrite H2. vm_compute. discriminate. Qed.

(** C30. The reference core's keys depend on the randomness only (exactly sized buffers). *)
Theorem C30_keypair_deterministic : forall E : Env, env_ok E -> forall mt r rnd pk1 sk1 pk2 sk2, In r (rows mt) ->
  length pk1 = 4 + pk_size r -> length sk1 = 4 + sk_size r -> length pk2 = 4 + pk_size r -> length sk2 = 4 + sk_size r ->
  keypair mt ref_core pk1 sk1 (r_oid r) rnd = keypair mt ref_core pk2 sk2 (r_oid r) rnd.
Proof. exact (@keypair_deterministic). Qed.
Print Assumptions C30_keypair_deterministic.
Example C30_applies : length (repeat 1%N 68) = 4 + pk_size ex_row /\ length (repeat 0%N 136) = 4 + sk_size ex_row.
Proof. split; reflexivity. Qed.

(** C31. Signing does not depend on the output buffer or on uninitialised storage. *)
Theorem C31_sign_deterministic : forall s256 s512 j1 j2 mt r sk sm1 sm2 l1 l2 m,
  let E1 := {| sha256 := s256; sha512 := s512; junk := j1 |} in
  let E2 := {| sha256 := s256; sha512 := s512; junk := j2 |} in
  env_ok E1 -> In r (rows mt) -> key_of r (sk_size (E := E1) r) sk ->
  sig_size (E := E1) r + length m <= length sm1 -> sig_size (E := E1) r + length m <= length sm2 ->
  exists o1 o2, sign (E := E1) mt (ref_core (E := E1)) sk sm1 l1 m = Ok o1 /\ sign (E := E2) mt (ref_core (E := E2)) sk sm2 l2 m = Ok o2 /\
    so_rc o1 = so_rc o2 /\ so_sk o1 = so_sk o2 /\ so_smlen o1 = so_smlen o2 /\
    (so_rc o1 = 0%Z -> signed_message o1 = signed_message o2).
Proof. exact sign_deterministic. Qed.
Print Assumptions C31_sign_deterministic.
(* non-vacuity: C06_applies, C02_applies *)

(** C42. Verification depends only on signed message and public key (and both cores agree). *)
Theorem C42_open_deterministic : forall s256 s512 j1 j2 mt r c1 c2 mbuf1 mbuf2 l1 l2 sm pk,
  let E1 := {| sha256 := s256; sha512 := s512; junk := j1 |} in
  let E2 := {| sha256 := s256; sha512 := s512; junk := j2 |} in
  env_ok E1 -> In r (rows mt) -> a_core (E := E1) c1 -> a_core (E := E2) c2 -> key_of r (pk_size r) pk ->
  sig_size (E := E1) r <= length sm -> bytes_ok sm -> length sm <= length mbuf1 -> length sm <= length mbuf2 ->
  exists o1 o2, sign_open (E := E1) mt c1 mbuf1 l1 sm pk = Ok o1 /\ sign_open (E := E2) mt c2 mbuf2 l2 sm pk = Ok o2 /\
    oo_rc o1 = oo_rc o2 /\ oo_mlen o1 = oo_mlen o2 /\
    firstn (length sm - sig_size (E := E1) r) (oo_m o1) = firstn (length sm - sig_size (E := E1) r) (oo_m o2).
Proof. exact open_deterministic. Qed.
Print Assumptions C42_open_deterministic.
(* non-vacuity: C21_applies *)

(** C16. Unknown OIDs are rejected and nothing is modified (any core).  That accepted OIDs
    select their own parameter set is C08, C06 and C07. *)
Theorem C16_keypair_rejects_unknown_oid : forall (E : Env) mt c pk sk oid rnd,
  ~ In oid (map r_oid (rows mt)) -> keypair mt c pk sk oid rnd = Ok ((-1)%Z, pk, sk).
Proof. exact (@keypair_reject). Qed.
Print Assumptions C16_keypair_rejects_unknown_oid.
Theorem C16_sign_rejects_unknown_oid : forall (E : Env) mt c sk sm smlen m, 4 <= length sk -> bytes_ok sk -> (nth 0 sk 0 < 128)%N ->
  ~ In (os2ip (firstn 4 sk)) (map r_oid (rows mt)) -> sign mt c sk sm smlen m = Ok (mkSign (-1) sk sm smlen).
Proof. exact (@sign_reject). Qed.
Print Assumptions C16_sign_rejects_unknown_oid.
Theorem C16_open_rejects_unknown_oid : forall (E : Env) mt c m mlen sm pk, 4 <= length pk -> bytes_ok pk -> (nth 0 pk 0 < 128)%N ->
  ~ In (os2ip (firstn 4 pk)) (map r_oid (rows mt)) -> sign_open mt c m mlen sm pk = Ok (mkOpen (-1) m mlen).
Proof. exact (@open_reject). Qed.
Print Assumptions C16_open_rejects_unknown_oid.
Example C16_applies : ~ In (os2ip (firstn 4 [0; 0; 0; 22; 1]%N)) (map r_oid (rows false)).
Proof. vm_compute. intros H. repeat (destruct H as [H|H]; [discriminate|]). exact H. Qed.

(** C17 refuted: an OID byte of 0x80 or more is shifted into the sign bit. *)
Theorem C17_refuted : forall (E : Env) mt c sk sm smlen m, 4 <= length sk -> (128 <= nth 0 sk 0)%N -> sign mt c sk sm smlen m = UB.
Proof. exact (@oid_ub). Qed.
Print Assumptions C17_refuted.
Theorem C17_open_refuted : forall (E : Env) mt c m mlen sm pk, 4 <= length pk -> (128 <= nth 0 pk 0)%N -> sign_open mt c m mlen sm pk = UB.
Proof. exact (@oid_ub_open). Qed.
Print Assumptions C17_open_refuted.
Example C17_applies : (128 <= nth 0 [200; 0; 0; 1]%N 0)%N.
Proof. vm_compute. discriminate. Qed.

(** C19 refuted: every truncated input is undefined behaviour. *)
Theorem C19_refuted : forall (E : Env) mt r c mbuf mlen sm pk, In r (rows mt) -> a_core c ->
  key_of r (pk_size r) pk -> bytes_ok sm -> length sm < sig_size r -> sign_open mt c mbuf mlen sm pk = UB.
Proof. exact (@open_truncated). Qed.
Print Assumptions C19_refuted.
Example C19_applies : key_of ex_row (pk_size ex_row) ex_pk /\ length [1; 2; 3]%N < sig_size ex_row.
Proof. split; [exact ex_pk_key|apply Nat.leb_le; vm_compute; reflexivity]. Qed.

(** C43 refuted: with some hash function an out-of-range index is accepted under an
    honestly generated public key. *)
Theorem C43_refuted : exists E : Env, env_ok E /\ forall mt r, In r (rows mt) -> r_fn r = SHA2 -> r_n r = 32 ->
  forall rnd pk0 sk0 idx m mbuf mlen, (forall i, (rnd i < 256)%N) ->
  length pk0 = 4 + pk_size r -> length sk0 = 4 + sk_size r ->
  (2 ^ N.of_nat (r_h r) <= idx < 256 ^ N.of_nat (idx_size r))%N ->
  bytes_ok m -> sig_size r + length m <= length mbuf ->
  exists pk sk sm oo, keypair mt ref_core pk0 sk0 (r_oid r) rnd = Ok (0%Z, pk, sk) /\
    sm_index r sm = idx /\ sign_open mt ref_core mbuf mlen sm pk = Ok oo /\ oo_rc oo = 0%Z.
Proof. exact (ex_intro _ zero_env (conj zero_env_ok big_index_accepted)). Qed.
Print Assumptions C43_refuted.
Example C43_applies : (2 ^ N.of_nat (r_h ex_row) <= 1024 < 256 ^ N.of_nat (idx_size ex_row))%N.
Proof. split; [vm_compute; discriminate|reflexivity]. Qed.
