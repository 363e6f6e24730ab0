(** Property theorems about randombytes and the command-line tools. *)
From Coq Require Import String.
From Verif Require Import Base Lib ModelUtils ModelParams ModelCore ModelCoreFast ModelCommons ModelXmss ModelRandom ModelUi
  SpecRfc SpecParams SpecApi SpecRandom SpecUi ProofUtils ProofRandom ProofApi ProofMain ProofMain3 ProofUi ProofUi2 ProofParams PropApi.

Local Existing Instance ex_env.

(** C38.  Whenever randombytes returns, the buffer starts with exactly what the reads
    delivered, in order, [xlen] bytes in total, and is unchanged behind; each read asked for
    no more than what was missing. *)
Theorem C38_fills_exactly : forall o fuel fd x xlen x' fd' t, reads_ok o -> N.to_nat xlen <= length x ->
  randombytes o fuel fd x xlen = Ok (x', fd', t) ->
  exists ks, length ks = t /\ x' = concat (deliveries o 0 ks) ++ skipn (N.to_nat xlen) x /\
    length (concat (deliveries o 0 ks)) = N.to_nat xlen /\ asked o 0 xlen ks.
Proof.
  intros o fuel fd x xlen x' fd' t Ho Hl H. unfold randombytes in H.
  destruct (if fd then _ else _) as [u| |]; try discriminate H. cbn [bind] in H.
  destruct (read_loop o fuel 0 x 0 xlen) as [[y s]| |] eqn:Er; try discriminate H. cbn [bind] in H. injection H as -> _ ->.
  destruct (read_loop_ok o Ho fuel 0 x 0 xlen x' t) as [ks [K1 [_ [K3 [K4 K5]]]]]; [lia|exact Er|].
  exists ks. rewrite Nat.sub_0_r in K1. auto.
Qed.
Print Assumptions C38_fills_exactly.
(** It never writes outside the buffer ... *)
Theorem C38_memory_safe : forall o fuel fd x xlen, reads_ok o -> N.to_nat xlen <= length x -> randombytes o fuel fd x xlen <> UB.
Proof.
  intros o fuel fd x xlen Ho Hl. unfold randombytes. pose proof (read_loop_no_ub o Ho fuel 0 x 0 xlen Hl) as Hn. pose proof (open_loop_no_ub o fuel 0) as Hq.
  destruct fd; [|destruct (open_loop o fuel 0); [|congruence|discriminate]]; cbn [bind]; (destruct (read_loop o fuel 0 x 0 xlen) as [[y s]| |]; [discriminate|congruence|discriminate]).
Qed.
Print Assumptions C38_memory_safe.
(** ... and it returns unless the device fails for ever. *)
Theorem C38_returns : forall o fd x xlen, reads_ok o -> eventually_serves o -> N.to_nat xlen <= length x ->
  exists fuel r, randombytes o fuel fd x xlen = Ok r.
Proof.
  intros o fd x xlen Ho Hs Hl. destruct (open_loop_terminates o (proj1 Hs)) as [f1 H1].
  destruct (read_loop_terminates o Ho Hs (S (N.to_nat xlen)) xlen 0 x 0) as [f2 H2]; [lia|lia|].
  exists (f1 + f2). unfold randombytes. destruct (H1 (f1 + f2)) as [u Hu]; [lia|]. destruct (H2 (f1 + f2)) as [[y s] Hr]; [lia|]. rewrite Hu, Hr. destruct fd; eexists; reflexivity.
Qed.
Print Assumptions C38_returns.
(** a device that fails every second call and delivers at most 3 bytes *)
Definition ex_os : os := mkOs (fun t => 2 <=? t) (fun t k => if Nat.even t then None else Some (repeat (N.of_nat t) (Nat.min k 3))).
Example C38_applies : reads_ok ex_os /\ randombytes ex_os 20 false (repeat 99%N 9) 7 = Ok ([1; 1; 1; 3; 3; 3; 5; 99; 99]%N, true, 6).
Proof.
  split; [|vm_compute; reflexivity]. intros t k d H. cbn in H. destruct (Nat.even t); [discriminate|]. injection H as <-. rewrite repeat_length. lia.
Qed.

(** C39 refuted.  The sign tool, on any key file with a valid secret key and any message: at
    some crash point the complete signed message has left through stdout while the key file
    is still the old one. *)
Theorem C39_refuted : forall E : Env, env_ok E -> forall mt rp r pk sk rest m, In rp (rows mt) -> In r (rows mt) ->
  key_of rp (pk_size rp) pk -> key_of r (sk_size r) sk -> (sk_index r sk + 1 < 2 ^ N.of_nat (r_h r))%N ->
  exists u s, ui_sign mt ref_core true (Some (pk ++ sk ++ rest)) (Some m) = Ok u /\
    crash_state (pk ++ sk ++ rest) u s /\ d_key s = pk ++ sk ++ rest /\
    d_out s = mt_sign (row_sp r) (sk_field r 0 sk) (sk_field r 1 sk) (sk_field r 2 sk) (sk_field r 3 sk) (sk_index r sk) m ++ m.
Proof.
  intros E HE mt rp r pk sk rest m Hrp Hr Hpk Hsk Hi. destruct (tool_crash HE mt rp r pk sk rest m Hrp Hr Hpk Hsk) as [u [o [Hu [_ [Ho [[s [S1 [S2 S3]]] _]]]]]].
  exists u, s. split; [exact Hu|]. split; [exact S1|]. split; [exact S3|]. rewrite S2.
  destruct (sign_rfc HE mt r sk (uninit (sig_size r + length m)) (N.to_nat (junk 0)) m Hr Hsk Hi) as [o' [Ho' [_ [_ Hsm]]]]; [rewrite uninit_length; lia|].
  rewrite Ho in Ho'. injection Ho' as <-. exact Hsm.
Qed.
Print Assumptions C39_refuted.
(** What does hold: once the key file has been closed it holds the key that sign returned,
    and a completed run has updated the key file and written the signed message. *)
Theorem C39_after_close_partial : forall E : Env, env_ok E -> forall mt rp r pk sk rest m, In rp (rows mt) -> In r (rows mt) ->
  key_of rp (pk_size rp) pk -> key_of r (sk_size r) sk ->
  exists u o, ui_sign mt ref_core true (Some (pk ++ sk ++ rest)) (Some m) = Ok u /\ ui_exit u = 0%Z /\
    sign mt ref_core sk (uninit (sig_size r + length m)) (N.to_nat (junk 0)) m = Ok o /\
    (forall s, crash_state (pk ++ sk ++ rest) u s -> ~ In KeyClose (d_todo s) -> d_key s = pk ++ so_sk o ++ rest) /\
    completed (pk ++ sk ++ rest) u (pk ++ so_sk o ++ rest) (signed_message o) /\
    (forall kf' out, completed (pk ++ sk ++ rest) u kf' out -> kf' = pk ++ so_sk o ++ rest /\ out = signed_message o).
Proof.
  intros E HE mt rp r pk sk rest m Hrp Hr Hpk Hsk. destruct (tool_crash HE mt rp r pk sk rest m Hrp Hr Hpk Hsk) as [u [o [Hu [Hx [Ho [_ [Hc [Hd He]]]]]]]].
  exists u, o. auto 10.
Qed.
Print Assumptions C39_after_close_partial.
Example C39_applies : key_of ex_row (pk_size ex_row) ex_pk /\ key_of ex_row (sk_size ex_row) (ex_sk 5) /\
  (sk_index ex_row (ex_sk 5) + 1 < 2 ^ N.of_nat (r_h ex_row))%N.
Proof. split; [exact ex_pk_key|]. destruct (ex_sk_key 5) as [H1 H2]; [now left|]. split; [exact H1|]. rewrite H2. reflexivity. Qed.

(** C46.  Whatever part of the key file update has reached the disk, the stored index has
    not gone back (so it stays above all indices used before) nor beyond the last one, and
    nothing else in the file has changed. *)
Theorem C46_torn_key_never_goes_back : forall E : Env, env_ok E -> forall mt rp r pk sk rest m, In rp (rows mt) -> In r (rows mt) ->
  key_of rp (pk_size rp) pk -> key_of r (sk_size r) sk -> (sk_index r sk + 1 < 2 ^ N.of_nat (r_h r))%N ->
  exists u, ui_sign mt ref_core true (Some (pk ++ sk ++ rest)) (Some m) = Ok u /\
    forall s, crash_state (pk ++ sk ++ rest) u s ->
    exists sk1, d_key s = pk ++ sk1 ++ rest /\ key_of r (sk_size r) sk1 /\
      (sk_index r sk <= sk_index r sk1 < 2 ^ N.of_nat (r_h r))%N /\ skipn (4 + idx_size r) sk1 = skipn (4 + idx_size r) sk.
Proof. exact @tool_torn. Qed.
Print Assumptions C46_torn_key_never_goes_back.
(* non-vacuity: C39_applies *)

(** C40 refuted: with an exhausted key the tool exits with 0 and writes a signed message whose
    signature part is uninitialised heap memory. *)
Theorem C40_refuted : forall E : Env, env_ok E -> forall mt rp r pk sk rest m, In rp (rows mt) -> In r (rows mt) ->
  key_of rp (pk_size rp) pk -> key_of r (sk_size r) sk -> (2 ^ N.of_nat (r_h r) <= sk_index r sk)%N ->
  exists u kf', ui_sign mt ref_core true (Some (pk ++ sk ++ rest)) (Some m) = Ok u /\ ui_exit u = 0%Z /\
    completed (pk ++ sk ++ rest) u kf' (firstn (sig_size r) (uninit (sig_size r + length m)) ++ m).
Proof.
  intros E HE mt rp r pk sk rest m Hrp Hr Hpk Hsk Hi. destruct (tool_crash HE mt rp r pk sk rest m Hrp Hr Hpk Hsk) as [u [o [Hu [Hx [Ho [_ [Hc _]]]]]]].
  exists u, (pk ++ so_sk o ++ rest). split; [exact Hu|]. split; [exact Hx|].
  rewrite (sign_exhausted_row mt r Hr sk Hsk) in Ho; [|exact Hi|rewrite uninit_length; lia]. injection Ho as <-.
  match type of Hc with completed _ _ _ ?x => assert (He : x = firstn (sig_size r) (uninit (sig_size r + length m)) ++ m) end.
  { unfold signed_message. cbn [so_smlen so_sm]. rewrite app_assoc. apply ProofCore.firstn_app_len. rewrite app_length, firstn_length, uninit_length. lia. }
  rewrite He in Hc. exact Hc.
Qed.
Print Assumptions C40_refuted.
Example C40_applies : key_of ex_row (sk_size ex_row) (ex_sk 1024) /\ (2 ^ N.of_nat (r_h ex_row) <= sk_index ex_row (ex_sk 1024))%N.
Proof. destruct (ex_sk_key 1024) as [H1 H2]; [do 2 right; now left|]. split; [exact H1|]. rewrite H2. vm_compute. discriminate. Qed.

(** C41. *)
Theorem C41_keypair_unknown_name : forall (E : Env) mt c s rnd, ~ In s (map row_name (rows mt)) ->
  ui_keypair mt c (Some s) rnd = Ok (mkUi (-1) [ExitProc]).
Proof. exact @keypair_unknown. Qed.
Print Assumptions C41_keypair_unknown_name.
Theorem C41_sign_unknown_oid : forall (E : Env) mt c kf m, 4 <= length kf -> bytes_ok kf -> ~ In (os2ip (firstn 4 kf)) (map r_oid (rows mt)) ->
  ui_sign mt c true (Some kf) (Some m) = Ok (mkUi (-1) [KeyClose; ExitProc]).
Proof. exact @sign_unknown. Qed.
Print Assumptions C41_sign_unknown_oid.
Theorem C41_sign_unknown_secret_oid : forall (E : Env) mt c rp kf m, a_core c -> In rp (rows mt) -> firstn 4 kf = toByte (r_oid rp) 4 ->
  4 + pk_size rp + 4 <= length kf -> bytes_ok kf -> ~ In (os2ip (firstn 4 (skipn (4 + pk_size rp) kf))) (map r_oid (rows mt)) ->
  ui_sign mt c true (Some kf) (Some m) = Ok (mkUi (-1) [KeyClose; ExitProc]).
Proof.
  intros E mt c rp kf m Hc Hr. destruct Hc as [->| ->].
  - apply (sign_unknown_sk mt _ rp (sk_ref rp)); [exact Hr|]. intros p0. now apply parse_accept_ref.
  - apply (sign_unknown_sk mt _ rp (sk_fast rp)); [exact Hr|]. intros p0. now apply parse_accept_fast.
Qed.
Print Assumptions C41_sign_unknown_secret_oid.
Theorem C41_open_unknown_oid : forall (E : Env) mt c kf smf, 4 <= length kf -> bytes_ok kf -> ~ In (os2ip (firstn 4 kf)) (map r_oid (rows mt)) ->
  ui_open mt c true (Some kf) (Some smf) = Ok ((-1)%Z, NoVerdict).
Proof. exact @open_unknown. Qed.
Print Assumptions C41_open_unknown_oid.
(** such runs leave the key file alone and write nothing *)
Theorem C41_no_effect : forall kf u s, (u = mkUi (-1) [ExitProc] \/ u = mkUi (-1) [KeyClose; ExitProc]) ->
  crash_state kf u s -> d_key s = kf /\ d_out s = [].
Proof.
  intros kf u s Hu Hs. assert (H : d_key s = kf /\ d_keybuf s = [] /\ d_out s = [] /\ d_outbuf s = [] /\ (forall a, In a (d_todo s) -> a = KeyClose \/ a = ExitProc)); [|tauto].
  unfold crash_state in Hs. induction Hs as [|s1 s2 Hr IH Hst].
  - cbn. repeat split; auto. destruct Hu as [->| ->]; cbn; intros a Ha; intuition congruence.
  - destruct IH as [I1 [I2 [I3 [I4 I5]]]]. destruct Hst as [ky a b o ob t|ky kb o a b t|ky kb o ob ps dt t|ky kb o ob dt t|ky kb o ob t|ky kb o ob t]; cbn [d_key d_keybuf d_out d_outbuf d_todo] in *.
    + apply app_eq_nil in I2. destruct I2 as [-> ->]. auto.
    + apply app_eq_nil in I4. destruct I4 as [-> ->]. rewrite app_nil_r. auto.
    + destruct (I5 _ (or_introl eq_refl)); discriminate.
    + destruct (I5 _ (or_introl eq_refl)); discriminate.
    + subst. repeat split; auto. intros a Ha. apply I5. now right.
    + subst. repeat split; auto. intros a Ha. apply I5. now right.
Qed.
Print Assumptions C41_no_effect.
Example C41_applies : ~ In "XMSS-SHA2_11_256"%string (map row_name (rows false)) /\ ~ In (os2ip (firstn 4 [200; 0; 0; 1]%N)) (map r_oid (rows true)).
Proof. split; vm_compute; intuition discriminate. Qed.

(** C47. The open tool exits with 0 and reports success exactly on RFC 8391 valid inputs. *)
Theorem C47_open_tool : forall E : Env, env_ok E -> forall mt r c pk rest smf, In r (rows mt) -> a_core c ->
  key_of r (pk_size r) pk -> sig_size r <= length smf -> bytes_ok smf ->
  ui_open mt c true (Some (pk ++ rest)) (Some smf) =
  Ok (if mt_verify (row_sp r) (firstn (r_n r) (skipn 4 pk)) (skipn (4 + r_n r) pk) (firstn (sig_size r) smf) (skipn (sig_size r) smf)
      then (0%Z, VerificationSucceeded) else ((-1)%Z, VerificationFailed)).
Proof.
  intros E HE mt r c pk rest smf Hr Hc Hk Hl Hb.
  destruct (open_decides HE mt r c (uninit (length smf)) (N.to_nat (junk 0)) smf pk Hr Hc Hk Hl Hb) as [o [Ho [_ [H1 [H2 _]]]]]; [now rewrite uninit_length|].
  rewrite (open_tool mt r c pk rest smf _ _ Hr Hc Hk eq_refl eq_refl o Ho).
  destruct (mt_verify _ _ _ _ _).
  - destruct (H1 eq_refl) as [-> _]. reflexivity.
  - destruct (H2 eq_refl) as [-> _]. reflexivity.
Qed.
Print Assumptions C47_open_tool.
(* non-vacuity: C07_rejects; accepted inputs: C48_applies *)

(** C48. The three tools together: keypair writes a key file; every sequence of fewer than
    2^h completed sign runs on it succeeds, and every output opens under the first key file. *)
Theorem C48_tools_end_to_end : forall E : Env, env_ok E -> forall mt r rnd ms c, In r (rows mt) -> (forall i, (rnd i < 256)%N) -> a_core c ->
  (N.of_nat (length ms) < 2 ^ N.of_nat (r_h r))%N -> Forall bytes_ok ms ->
  exists u kf kf' outs, ui_keypair mt ref_core (Some (row_name r)) rnd = Ok u /\ ui_exit u = 0%Z /\ completed [] u [] kf /\
    session mt ref_core kf ms kf' outs /\
    Forall2 (fun m out => skipn (sig_size r) out = m /\ ui_open mt c true (Some kf) (Some out) = Ok (0%Z, VerificationSucceeded)) ms outs.
Proof. exact @tools_end_to_end. Qed.
Print Assumptions C48_tools_end_to_end.
Example C48_applies : (N.of_nat (length [[1; 2]; []; [3]]%N) < 2 ^ N.of_nat (r_h ex_row))%N /\ Forall bytes_ok [[1; 2]; []; [3]]%N.
Proof. split; [reflexivity|]. repeat constructor. Qed.
