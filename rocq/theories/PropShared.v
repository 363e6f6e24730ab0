(** Property theorems: several runs of the sign tool on one key file at the same time, and what
    the reuse of an index gives away. *)
From Coq Require Import String.
From Verif Require Import Base ModelUtils ModelParams ModelHash ModelCommons ModelCore ModelCoreFast ModelXmss ModelUi ModelShared SpecRfc SpecParams SpecApi SpecFast SpecForge SpecUi SpecTools SpecReuse.
From Verif Require Import ProofToy.
From Verif Require ProofCore ProofShared ProofReuse2.
From Verif Require Import PropApi PropTools.
Local Existing Instance ex_env.

(** C68, refuted.  On every key file the keypair tool makes, behind every session of i signatures,
    with either core: a run of the sign tool for [m0] and runs for the messages [ms'] can be
    interleaved (the first one reads the key file before, and writes it back after, all others) so
    that every run exits normally and every released signed message opens under the key file, but
    the signed message of [m0] carries index i, as does that of the first of [ms'] (its index is
    used twice), and the key file is left as if [m0] had been the only run: all the indices of [ms']
    will be used again.  And anybody who sees the two messages with index i makes, with nothing but
    the public key, a signed message for every message [m] whose digits are nowhere below both:
    the open tool accepts it. *)
Theorem C68_refuted_overlapping_runs : forall E : Env, env_ok E -> forall mt r core lim size rnd u kf ms kf1 outs0 c m0 ms', In r (rows mt) -> signer r core lim size ->
  (forall i, (rnd i < 256)%N) -> bytes_ok (uninit (4 + size)) -> a_core c ->
  ui_keypair mt core (Some (row_name r)) rnd = Ok u -> completed [] u [] kf -> session mt core kf ms kf1 outs0 ->
  (N.of_nat (List.length ms) + N.of_nat (List.length ms') < lim)%N -> (N.of_nat (List.length ms) + 1 < lim)%N ->
  Forall bytes_ok ms -> bytes_ok m0 -> Forall bytes_ok ms' ->
  let i := N.of_nat (List.length ms) in let pk := firstn (4 + pk_size r) kf in
  exists kf' o0 outs, shared_reach mt core (kf1, Waiting m0 :: map Waiting ms') (kf', Exited o0 :: map Exited outs) /\
    session mt core kf1 [m0] kf' [o0] /\ sm_index r o0 = i /\
    (forall j out, nth_error outs j = Some out -> sm_index r out = (i + N.of_nat j)%N) /\
    Forall2 (fun m out => skipn (sig_size r) out = m /\ ui_open mt c true (Some kf) (Some out) = Ok (0%Z, VerificationSucceeded)) (m0 :: ms') (o0 :: outs) /\
    (forall o1 R m, nth_error outs 0 = Some o1 -> List.length R = r_n r -> can_forge r pk o0 o1 R m ->
       let out := forge r pk o0 o1 R m in skipn (sig_size r) out = m /\ ui_open mt c true (Some kf) (Some out) = Ok (0%Z, VerificationSucceeded)).
Proof. intros E HE mt r core lim size rnd u kf ms kf1 outs0 c m0 ms'. exact (ProofShared.tools_overlap HE mt r core lim size rnd u kf ms kf1 outs0 c m0 ms'). Qed.
Print Assumptions C68_refuted_overlapping_runs.

(** C68: why an index must not be used twice, at the level of the API.  Two histories of signing
    that start from the same secret key (a restored backup, say) give, at every position j, two
    signed messages with index j, and from these and the public key the function [forge], which
    uses no secret, makes for every message in reach a signed message that [xmss_sign_open] accepts. *)
Theorem C68_reuse_lets_anybody_forge : forall E : Env, env_ok E -> forall mt r, In r (rows mt) -> forall core lim size, signer r core lim size ->
  forall rnd pk0 sk0 pk sk cs1 cs2 sk1 sk2 os1 os2, (forall i, (rnd i < 256)%N) ->
  List.length pk0 = 4 + pk_size r -> List.length sk0 = 4 + size -> bytes_ok sk0 -> keypair mt core pk0 sk0 (r_oid r) rnd = Ok (0%Z, pk, sk) ->
  (N.of_nat (List.length cs1) < lim)%N -> (N.of_nat (List.length cs2) < lim)%N -> Forall (call_ok r) cs1 -> Forall (call_ok r) cs2 ->
  sign_run mt core sk cs1 = Ok (sk1, os1) -> sign_run mt core sk cs2 = Ok (sk2, os2) ->
  forall j o1 o2, nth_error os1 j = Some o1 -> nth_error os2 j = Some o2 ->
  let sm1 := signed_message o1 in let sm2 := signed_message o2 in
  sm_index r sm1 = N.of_nat j /\ sm_index r sm2 = N.of_nat j /\
  forall c R m mbuf mlen, a_core c -> List.length R = r_n r -> can_forge r pk sm1 sm2 R m -> List.length (forge r pk sm1 sm2 R m) <= List.length mbuf ->
    exists oo, sign_open mt c mbuf mlen (forge r pk sm1 sm2 R m) pk = Ok oo /\ oo_rc oo = 0%Z /\ oo_mlen oo = List.length m /\ firstn (List.length m) (oo_m oo) = m.
Proof. intros E HE mt r Hr core lim size Hs. exact (ProofReuse2.reuse_forges HE mt r Hr core lim size Hs). Qed.
Print Assumptions C68_reuse_lets_anybody_forge.

Example C68_applies : In ex_row (rows false) /\ signer ex_row ref_core (2 ^ N.of_nat (r_h ex_row))%N (sk_size ex_row) /\ signer ex_row fast_core (fast_limit ex_row) (fast_size ex_row) /\
  bytes_ok (uninit (4 + fast_size ex_row)) /\ (N.of_nat (List.length [[1; 2]; []]%N) + N.of_nat (List.length [[7]; []; [9]]%N) < fast_limit ex_row)%N /\ Forall bytes_ok [[7]; []; [9]]%N.
Proof. split; [exact ex_row_in|]. split; [apply C48_either_applies|]. split; [apply C48_either_applies|]. split; [apply ex_uninit_ok|]. split; [vm_compute; reflexivity|]. repeat (constructor; [repeat constructor|]). constructor. Qed.

(** The condition [can_forge] is met non-trivially: with a hash function under which one message
    has a digest of zeros and another one of ones, two signed messages, and then every message
    whatever can be forged. *)
Definition ends256 (x : bytes) : bytes :=
  if (nth 31 x 0 =? 2)%N then fix32 (repeat (last x 0%N) 32) else toy256 x.
Definition ends_env : Env := {| sha256 := ends256; sha512 := fun _ => repeat 0%N 64; junk := fun _ => 0%N |}.
Example ends_env_ok : env_ok ends_env.
Proof.
  intros x. destruct (toy_env_ok (fun _ => 0%N) x) as [H1 H2]. cbn [toy_env sha256 sha512] in H1, H2. cbn [ends_env sha256 sha512]. split; [|exact H2].
  unfold ends256. destruct (nth 31 x 0 =? 2)%N; [apply fix32_ok|exact H1].
Qed.
Definition ex_signed (b : N) : bytes := repeat 0%N (sig_size ex_row) ++ [5; b]%N.
Lemma ends_msg x b : firstn 32 (ends256 (toByte 2 32 ++ x ++ [5; b]%N)) = fix32 (repeat b 32).
Proof.
  unfold ends256. rewrite app_nth1 by (cbv; lia). change (nth 31 (toByte 2 32) 0 =? 2)%N with true. cbv iota.
  replace (toByte 2 32 ++ x ++ [5; b]%N) with ((toByte 2 32 ++ x ++ [5]%N) ++ [b]) by (rewrite <- !app_assoc; reflexivity).
  rewrite last_last. apply firstn_all2. rewrite (proj1 (fix32_ok _)). lia.
Qed.
Example C68_can_forge : forall pk R m, can_forge (E := ends_env) ex_row pk (ex_signed 0) (ex_signed 255) R m.
Proof.
  assert (Hd : forall pk b, sm_digits (E := ends_env) ex_row pk (ex_signed b) = wots_digits (row_sp (E := ends_env) ex_row) (fix32 (repeat b 32))).
  { intros pk b. unfold sm_digits. f_equal. rewrite <- (ends_msg (firstn (r_n ex_row) (skipn (idx_size ex_row) (ex_signed b)) ++ pk_root ex_row pk ++ toByte (sm_index ex_row (ex_signed b)) 32) b).
    assert (Es : skipn (sig_size (E := ends_env) ex_row) (ex_signed b) = [5; b]%N) by (apply ProofCore.skipn_app_len; now rewrite repeat_length).
    rewrite Es. unfold H_msg. rewrite <- !app_assoc. reflexivity. }
  intros pk R m. unfold can_forge. cbv zeta. intros c Hc. rewrite !Hd.
  assert (Hm : forallb (fun c => (nth c (wots_digits (row_sp (E := ends_env) ex_row) (fix32 (repeat 0%N 32))) 0 =? 0) || (nth c (wots_digits (row_sp (E := ends_env) ex_row) (fix32 (repeat 255%N 32))) 0 =? 0)) (seq 0 67) = true) by (vm_compute; reflexivity).
  rewrite forallb_forall in Hm. specialize (Hm c). rewrite in_seq in Hm. change (sp_len (row_sp (E := ends_env) ex_row)) with 67 in Hc.
  specialize (Hm ltac:(lia)). apply Bool.orb_prop in Hm. destruct Hm as [Hm|Hm]; apply Nat.eqb_eq in Hm; rewrite Hm; [left|right]; apply Nat.le_0_l.
Qed.
