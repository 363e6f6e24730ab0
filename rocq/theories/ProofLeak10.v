(** Whoever holds the public key and the signed messages can compute every trace of the reference core. *)
From Verif Require Import Base Lib SpecRfc ModelUtils ModelParams ModelHash ModelWots ModelCommons ModelCore ModelXmss
  ProofUtils ProofHash ProofWots ProofCommons ProofTree ProofCore SpecParams SpecApi ProofParams ProofApi ProofHistory SpecFast ModelLeak SpecLeak ProofLeak ProofLeak2 ProofLeak3 ProofLeak5 ProofLeak6 ProofLeak7 ProofLeak8 ProofLeak9.

(** put the insides of the chains back *)
Fixpoint refill (t : list event) (cs : list (list event)) : list event :=
  match t with
  | [] => []
  | Chain _ :: t => match cs with u :: cs => Chain u :: refill t cs | [] => Chain [] :: refill t [] end
  | e :: t => e :: refill t cs
  end.
Lemma refill_id t : refill (map hide t) (chains t) = t.
Proof. induction t as [|e t IH]; [reflexivity|]. destruct e; cbn; rewrite IH; reflexivity. Qed.

Section Rows.
Context {E : Env} (HE : env_ok E).
Variables (mt : bool) (r : row).
Hypothesis Hr : In r (rows mt).
Notation P := (row_sp r).
Notation rp := (row_params r (sk_ref r)).

Definition simulate (pk sm : bytes) (room smlen : nat) : list event :=
  let rt := firstn (r_n r) (skipn 4 pk) in
  let seed := skipn (4 + r_n r) pk in
  let sig := firstn (sig_size r) sm in
  let m := skipn (sig_size r) sm in
  let z := repeat 0%N (r_n r) in
  refill (map hide (trace (ref_sign_seen mt (secret_key r (os2ip (firstn (idx_size r) sig)) z z z z) (repeat 0%N room) smlen (repeat 0%N (length m)))))
    (map (chain_trace P) (chain_lengths_public P rt seed sig m)).

Lemma key_agree i a b c d a' b' c' d' : length a = r_n r -> length b = r_n r -> length c = r_n r -> length d = r_n r ->
  length a' = r_n r -> length b' = r_n r -> length c' = r_n r -> length d' = r_n r ->
  agree (ref_mask r) (secret_key r i a b c d) (secret_key r i a' b' c' d').
Proof.
  intros. rewrite ref_mask_eq. unfold secret_key. apply ag_app; [apply ag_same_pub, toByte_length|]. apply ag_app; [apply ag_same_pub, toByte_length|].
  apply ag_sec; unfold ln; rewrite ?app_length; lia.
Qed.
Lemma sign_key i a b c d sm smlen m : length a = r_n r -> length b = r_n r -> length c = r_n r -> length d = r_n r ->
  (i + 1 < 2 ^ N.of_nat (r_h r))%N -> sig_size r + length m <= length sm ->
  sign mt ref_core (secret_key r i a b c d) sm smlen m =
  Ok (mkSign 0 (secret_key r (i + 1) a b c d) (mt_sign P a b c d i m ++ m ++ skipn (sig_size r + length m) sm) (sig_size r + length m)).
Proof.
  intros Ha Hb Hc Hd Hi Hm. unfold secret_key at 1. rewrite (sign_eq mt r Hr).
  pose proof (sign_spec rp (row_hash r) (p_ok mt r Hr) (p_hash HE mt r Hr) a b c d []) as H.
  rewrite row_n, p_ib, p_sig, p_h, sp_of_row in H. specialize (H Ha Hb Hc Hd i sm m smlen Hi Hm). rewrite layout_sk in H. rewrite H.
  cbn [bind so_rc so_sk so_sm so_smlen]. rewrite layout_sk. reflexivity.
Qed.
Lemma sig_len a b c d i m : length a = r_n r -> length b = r_n r -> length c = r_n r -> length d = r_n r -> length (mt_sign P a b c d i m) = sig_size r.
Proof.
  intros Ha Hb Hc Hd. pose proof (mt_sign_length rp (row_hash r) (p_ok mt r Hr) (p_hash HE mt r Hr) a b c d i m) as H.
  rewrite sp_of_row, p_sig in H. apply H.
Qed.

Lemma simulated i a b c d sm smlen m o : length a = r_n r -> length b = r_n r -> length c = r_n r -> length d = r_n r ->
  (i + 1 < 2 ^ N.of_nat (r_h r))%N -> sig_size r + length m <= length sm ->
  sign mt ref_core (secret_key r i a b c d) sm smlen m = Ok o ->
  trace (ref_sign_seen mt (secret_key r i a b c d) sm smlen m) = simulate (public_key r c d) (signed_message o) (length sm) smlen.
Proof.
  intros Ha Hb Hc Hd Hi Hm Ho. rewrite sign_key in Ho by assumption. injection Ho as <-. unfold signed_message. cbn [so_sm so_smlen].
  pose proof (sig_len a b c d i m Ha Hb Hc Hd) as Hs.
  unfold simulate, public_key. rewrite (skipn_app_len (toByte (r_oid r) 4)) by (now rewrite toByte_length). rewrite (firstn_app_len c) by lia.
  rewrite (app_assoc _ c d), (skipn_app_len (toByte (r_oid r) 4 ++ c)) by (rewrite app_length, toByte_length; lia).
  rewrite (app_assoc _ m), (firstn_app_len (mt_sign P a b c d i m ++ m)) by (rewrite app_length; lia).
  rewrite (firstn_app_len (mt_sign P a b c d i m)), (skipn_app_len (mt_sign P a b c d i m)) by lia.
  rewrite <- (row_chains HE mt r Hr i a b c d sm smlen m) by assumption.
  rewrite <- (refill_id (trace _)) at 1. f_equal.
  assert (Ei : os2ip (firstn (idx_size r) (mt_sign P a b c d i m)) = i).
  { unfold mt_sign. cbv zeta. unfold idx_size. rewrite firstn_app_len by (now rewrite toByte_length). rewrite os2ip_toByte. apply N.mod_small.
    pose proof (po_ib_le rp (p_ok mt r Hr)) as [_ Hib]. pose proof (pow2_lt_256 _ _ Hib) as H256. rewrite p_ib, p_h in H256. unfold idx_size in H256. lia. }
  rewrite Ei. assert (Hz : length (repeat 0%N (r_n r)) = r_n r) by apply repeat_length.
  refine (proj1 (ref_pair HE mt r Hr _ _ sm (repeat 0%N (length sm)) smlen m (repeat 0%N (length m)) _ _ _)).
  - unfold el. now rewrite repeat_length.
  - unfold el. now rewrite repeat_length.
  - split; [|unfold secret_key; apply firstn_app_len; now rewrite toByte_length]. pose proof (key_agree i a b c d _ _ _ _ Ha Hb Hc Hd Hz Hz Hz Hz) as Hk. exact Hk.
Qed.

Lemma life_simulated a b c d : length a = r_n r -> length b = r_n r -> length c = r_n r -> length d = r_n r ->
  forall cs i sk' os, (i + N.of_nat (length cs) < 2 ^ N.of_nat (r_h r))%N -> Forall (call_ok r) cs ->
  sign_run mt ref_core (secret_key r i a b c d) cs = Ok (sk', os) ->
  watch (ref_sign_seen mt) (secret_key r i a b c d) cs =
  map (fun q => simulate (public_key r c d) (signed_message (snd q)) (length (c_sm (fst q))) (c_smlen (fst q))) (combine cs os).
Proof.
  intros Ha Hb Hc Hd. induction cs as [|q cs IH]; intros i sk' os Hi Hcs Hrun; [reflexivity|].
  inversion Hcs as [|q' cs' Hq Hqs]; subst. cbn [length] in Hi. cbn [sign_run] in Hrun. cbn [watch].
  pose proof (sign_key i a b c d (c_sm q) (c_smlen q) (c_m q) Ha Hb Hc Hd ltac:(lia) Hq) as Hs.
  pose proof (seen_sign mt (secret_key r i a b c d) (c_sm q) (c_smlen q) (c_m q)) as Ho. rewrite Hs in Ho, Hrun. rewrite Ho. cbn [bind so_sk] in Hrun |- *.
  destruct (sign_run mt ref_core (secret_key r (i + 1) a b c d) cs) as [[sk1 os1]| |] eqn:Er; try discriminate. cbn [bind] in Hrun. injection Hrun as <- <-.
  cbn [combine map fst snd]. f_equal; [|apply (IH (i + 1)%N sk1 os1); [lia|exact Hqs|exact Er]].
  eapply simulated; [exact Ha|exact Hb|exact Hc|exact Hd|lia|exact Hq|exact Hs].
Qed.
End Rows.
