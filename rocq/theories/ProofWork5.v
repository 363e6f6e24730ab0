(** C72 behind the public API. *)
From Coq Require Import ZArith.
From Verif Require Import Base Lib SpecRfc SpecFips202 SpecParams SpecApi ModelUtils ModelParams ModelHash ModelWots ModelCommons ModelCore ModelCoreFast ModelXmss
  ProofUtils ProofHash ProofWots ProofCommons ProofTree ProofCore ProofParams ProofApi ProofMain.
From Verif Require Import ModelCost ProofCost ProofCost2 ModelWork ProofWork ProofWork2 ProofWork3 ProofWork4 ProofCost5 SpecWork.

Section Row.
Context {E : Env}.
Variable mt : bool.
Variable r : row.
Hypothesis Hr : In r (rows mt).

Lemma row_wots skb : N.of_nat (wots_len (row_params r skb)) = chains r /\ wots_w (row_params r skb) = 16.
Proof.
  assert (Hx : forallb (fun r => (N.of_nat (wots_len (row_params r skb)) =? chains r)%N && (wots_w (row_params r skb) =? 16)) (rows mt) = true) by (destruct mt; vm_compute; reflexivity).
  rewrite forallb_forall in Hx. specialize (Hx r Hr). apply andb_prop in Hx as [X1 X2]. split; [now apply N.eqb_eq|now apply Nat.eqb_eq].
Qed.
Lemma row_thh skb : tree_height (row_params r skb) = r_h r / r_d r.
Proof. rewrite (row_th _ _ (row_hash r)), sp_of_row. reflexivity. Qed.
Lemma row_leaf skb : leaf_work (row_params r skb) = leaf_hashes r.
Proof.
  destruct (row_wots skb) as [H1 H2]. unfold leaf_work, pkgen_work, lt_work, leaf_hashes, chain_steps. rewrite H2.
  replace (N.of_nat (wots_len (row_params r skb) - 1)) with (chains r - 1)%N by lia. rewrite H1. change (N.of_nat (16 - 1)) with 15%N. lia.
Qed.
Lemma row_tree skb : tree_work (row_params r skb) = tree_hashes r.
Proof. unfold tree_work, tree_hashes. cbv zeta. now rewrite row_leaf, row_thh. Qed.
Lemma row_lt skb : lt_work (row_params r skb) = (4 * (chains r - 1))%N.
Proof. destruct (row_wots skb) as [H1 H2]. unfold lt_work. lia. Qed.
Lemma row_open skb : open_max (row_params r skb) = open_hashes r.
Proof.
  destruct (row_wots skb) as [H1 H2]. unfold open_max, open_hashes, chain_steps. rewrite row_lt, row_thh, row_dd, H1, H2. change (N.of_nat (16 - 1)) with 15%N. lia.
Qed.
Lemma row_sign skb : sign_max (row_params r skb) = sign_hashes r.
Proof.
  destruct (row_wots skb) as [H1 H2]. unfold sign_max, sign_hashes, pkgen_work, chain_steps. rewrite row_tree, row_dd, H1, H2. change (N.of_nat (16 - 1)) with 15%N. lia.
Qed.

Lemma keypair_hashes pk sk rnd : (hashes (ref_keypair_work mt pk sk (r_oid r) rnd) <= tree_hashes r)%N /\
  (forall x, keypair mt ref_core pk sk (r_oid r) rnd = Ok x -> hashes (ref_keypair_work mt pk sk (r_oid r) rnd) = tree_hashes r).
Proof.
  assert (Hc : runs (ref_keypair_work mt pk sk (r_oid r) rnd) (tree_hashes r) (fun _ l => l = tree_hashes r)).
  { apply (kw_runs _ _ _ _ _ _ _ (row_params r (sk_ref r)) _ (fun _ _ => True)); [exact (parse_accept_ref mt r uninit_params Hr)|].
    intros pk1 sk1. pose proof (w_keypair (row_params r (sk_ref r)) pk1 sk1 rnd) as X. rewrite row_tree in X. exact X. }
  destruct Hc as [C1 C2]. split; [exact C1|]. intros x Hx. apply (C2 x). now rewrite work_keypair.
Qed.
Lemma sign_hashes_max sk sm smlen m : firstn 4 sk = toByte (r_oid r) 4 ->
  (hashes (ref_sign_work mt sk sm smlen m) <= sign_hashes r)%N /\
  (forall o, sign mt ref_core sk sm smlen m = Ok o -> so_rc o = (-2)%Z -> hashes (ref_sign_work mt sk sm smlen m) = 0%N).
Proof.
  intros Ho. rewrite <- (firstn_skipn 4 sk), Ho.
  assert (Hc : runs (ref_sign_work mt (toByte (r_oid r) 4 ++ skipn 4 sk) sm smlen m) (sign_hashes r) (fun o l => so_rc o = (-2)%Z -> l = 0%N)).
  { apply (sw_runs _ _ _ _ _ _ _ (skipn 4 sk) (r_oid r) (row_params r (sk_ref r)) _ (fun z l => z = (-2)%Z -> l = 0%N)); [exact (row_oid_bytes mt r _ Hr)|exact (parse_accept_ref mt r uninit_params Hr)| |].
    - unfold XMSS_OID_LEN. apply skipn_app_len. now rewrite toByte_length.
    - pose proof (w_sign_max (row_params r (sk_ref r)) (skipn 4 sk) sm smlen m) as X. rewrite row_sign in X. exact X. }
  destruct Hc as [C1 C2]. split; [exact C1|]. intros o Hs Hrc. apply (C2 o); [now rewrite work_sign|exact Hrc].
Qed.
Lemma open_work_eq c m mlen sm x skb : parse_oid mt (c_sk_bytes c) uninit_params (r_oid r) = Ok (Some (row_params r skb)) ->
  open_work mt c m mlen sm (toByte (r_oid r) 4 ++ x) = xmssmt_core_sign_open_w (row_params r skb) m sm x.
Proof.
  pose proof (row_oid_bytes mt r x Hr) as Ho.
  intros Hc. unfold open_work. destruct mt; unfold open_wrapper_w; rewrite Ho, cbind_ok;
    unfold parse_oid in Hc; rewrite Hc, cbind_ok; unfold XMSS_OID_LEN; rewrite skipn_app_len by (now rewrite toByte_length); reflexivity.
Qed.
Lemma parse_core c : a_core c -> exists skb, parse_oid mt (c_sk_bytes c) uninit_params (r_oid r) = Ok (Some (row_params r skb)) /\ (sk_ref r <= skb)%N.
Proof.
  intros [->| ->]; [exists (sk_ref r)|exists (sk_fast r)]; (split; [first [exact (parse_accept_ref mt r uninit_params Hr)|exact (parse_accept_fast mt r uninit_params Hr)]|]);
    [lia|apply sk_ref_fast].
Qed.
Lemma open_hashes_max c m mlen sm pk : a_core c -> firstn 4 pk = toByte (r_oid r) 4 -> (hashes (open_work mt c m mlen sm pk) <= open_hashes r)%N.
Proof.
  intros Hc Ho. destruct (parse_core c Hc) as (skb & Hp & Hskb). rewrite <- (firstn_skipn 4 pk), Ho, (open_work_eq c _ _ _ _ skb Hp), <- (row_open skb). apply w_open_max.
Qed.

Hypothesis HE : env_ok E.
Lemma both_sum skb sks seed M idx : N.of_nat (length M) = N.of_nat (r_n r) -> bytes_ok M -> params_ok (row_params r skb) -> hash_total (row_params r skb) (row_hash r) ->
  (sumN (fun i => layer_sign (row_params r (sk_ref r)) (layer_msg (row_sp r) sks seed M idx i)) 0 (r_d r) +
   sumN (fun i => layer_open (row_params r skb) (layer_msg (row_sp r) sks seed M idx i)) 0 (r_d r))%N =
  (N.of_nat (r_d r) * (leaf_hashes r + tree_hashes r + 4 * N.of_nat (r_h r / r_d r)))%N.
Proof.
  intros HM HB Hp HH. rewrite sumN_add, <- (sumN_const _ 0). apply sumN_ext. intros j _. unfold layer_sign, layer_open.
  assert (Hm : length (layer_msg (row_sp r) sks seed M idx j) = p_n (row_params r skb) /\ bytes_ok (layer_msg (row_sp r) sks seed M idx j)).
  { pose proof (layer_msg_ok (row_params r skb) (row_hash r) Hp HH sks seed M idx j) as X. rewrite row_n, sp_of_row in X. rewrite row_n. apply X; [lia|exact HB]. }
  set (x := layer_msg (row_sp r) sks seed M idx j) in *. destruct Hm as [Hm1 Hm2].
  assert (Hd : sign_digits (row_params r (sk_ref r)) x = sign_digits (row_params r skb) x).
  { unfold sign_digits. rewrite (chain_lengths_spec (row_params r skb) (row_hash r) Hp x Hm2 Hm1), sp_of_row.
    rewrite (chain_lengths_spec (row_params r (sk_ref r)) (row_hash r) (p_ok mt r Hr) x Hm2) by (rewrite Hm1, !row_n; reflexivity).
    rewrite sp_of_row, !(row_len _ _ (row_hash r)), !sp_of_row. reflexivity. }
  rewrite Hd.
  pose proof (digits_sum (row_params r skb) x _ (chain_lengths_spec (row_params r skb) (row_hash r) Hp x Hm2 Hm1)) as Hs.
  rewrite row_tree, row_lt, row_thh. destruct (row_wots skb) as [W1 W2]. destruct (row_wots (sk_ref r)) as [W3 W4]. rewrite W1, W2 in Hs. rewrite W3.
  change (N.of_nat (16 - 1)) with 15%N in Hs. unfold leaf_hashes, chain_steps. lia.
Qed.

(** signing, then verifying what was signed *)
Lemma sign_and_open c sk sm smlen m mbuf mlen : a_core c -> key_of r (sk_size r) sk -> (sk_index r sk + 1 < 2 ^ N.of_nat (r_h r))%N ->
  sig_size r + length m <= length sm -> sig_size r + length m <= length mbuf ->
  exists o, sign mt ref_core sk sm smlen m = Ok o /\ so_rc o = 0%Z /\
    (hashes (ref_sign_work mt sk sm smlen m) + hashes (open_work mt c mbuf mlen (signed_message o) (public_key r (sk_field r 2 sk) (sk_field r 3 sk))) = both_hashes r)%N.
Proof.
  intros Hc Hk Hi Hsm Hmb. eexists. split; [exact (sign_row HE mt r Hr sk Hk sm smlen m Hi Hsm)|]. split; [reflexivity|].
  destruct (parse_core c Hc) as (skb & Hp & Hskb).
  set (idx := sk_index r sk) in *. set (sks := sk_field r 0 sk). set (prfk := sk_field r 1 sk). set (rt := sk_field r 2 sk). set (seed := sk_field r 3 sk).
  assert (F0 : length sks = r_n r) by (apply sk_fields_length; [exact Hk|lia]). assert (F1 : length prfk = r_n r) by (apply sk_fields_length; [exact Hk|lia]).
  assert (F2 : length rt = r_n r) by (apply sk_fields_length; [exact Hk|lia]). assert (F3 : length seed = r_n r) by (apply sk_fields_length; [exact Hk|lia]).
  assert (Hpk : params_ok (row_params r skb)) by now apply (row_params_ok mt).
  pose proof (row_hash_total mt r skb HE Hr) as Hht. pose proof (p_ok mt r Hr) as Hpr. pose proof (p_hash HE mt r Hr) as Hhr.
  assert (Hsig : ModelParams.sig_bytes (row_params r skb) = sig_size r) by exact (p_sig r).
  set (R := PRF (row_sp r) prfk (toByte idx 32)). set (M := H_msg (row_sp r) R rt idx m).
  assert (HM : length M = r_n r /\ bytes_ok M).
  { unfold M, H_msg. split; [pose proof (Hf_length _ _ Hhr) as X; rewrite row_n in X; apply X|apply (Hf_bytes _ _ Hhr)]. }
  (* signing *)
  assert (Hw : hashes (ref_sign_work mt sk sm smlen m) = (2 + sumN (fun i => layer_sign (row_params r (sk_ref r)) (layer_msg (row_sp r) sks seed M idx i)) 0 (r_d r))%N).
  { assert (Hc2 : runs (ref_sign_work mt sk sm smlen m) (2 + sumN (fun i => layer_sign (row_params r (sk_ref r)) (layer_msg (row_sp r) sks seed M idx i)) 0 (r_d r))
       (fun _ l => l = (2 + sumN (fun i => layer_sign (row_params r (sk_ref r)) (layer_msg (row_sp r) sks seed M idx i)) 0 (r_d r))%N)).
    { rewrite (sk_split r sk Hk) at 1.
      apply (sw_runs _ _ _ _ _ _ _ (sk_layout (toByte idx (idx_size r)) sks prfk rt seed []) (r_oid r) (row_params r (sk_ref r)) _
         (fun _ l => l = (2 + sumN (fun i => layer_sign (row_params r (sk_ref r)) (layer_msg (row_sp r) sks seed M idx i)) 0 (r_d r))%N));
        [exact (row_oid_bytes mt r _ Hr)|exact (parse_accept_ref mt r uninit_params Hr)| |].
      - unfold XMSS_OID_LEN. apply skipn_app_len. now rewrite toByte_length.
      - pose proof (sign_work (row_params r (sk_ref r)) (row_hash r) Hpr Hhr sks prfk rt seed [] idx sm m smlen) as X.
        rewrite sp_of_row, row_n, row_dd, (p_ib r), (p_sig r), p_h in X. now apply X. }
    destruct Hc2 as [_ C2]. eapply C2. rewrite work_sign. exact (sign_row HE mt r Hr sk Hk sm smlen m Hi Hsm). }
  rewrite Hw.
  (* verification *)
  unfold public_key. rewrite (open_work_eq c _ _ _ _ skb Hp).
  assert (Hsl : length (mt_sign (row_sp r) sks prfk rt seed idx m) = sig_size r).
  { pose proof (mt_sign_length (row_params r skb) (row_hash r) Hpk Hht sks prfk rt seed idx m) as X. now rewrite sp_of_row, Hsig in X. }
  assert (Hsmo : signed_message (mkSign 0 (secret_key r (idx + 1) sks prfk rt seed) (mt_sign (row_sp r) sks prfk rt seed idx m ++ m ++ skipn (sig_size r + length m) sm) (sig_size r + length m)) =
     mt_sign (row_sp r) sks prfk rt seed idx m ++ m).
  { unfold signed_message. cbn [so_sm so_smlen]. rewrite app_assoc. apply firstn_app_len. rewrite app_length. lia. }
  rewrite Hsmo.
  pose proof (open_body_work (row_params r skb) (row_hash r) Hpk Hht sks prfk rt seed idx mbuf m (rt ++ seed)) as X. cbv zeta in X.
  rewrite sp_of_row, row_n, row_dd, Hsig, row_h in X. fold R in X. fold M in X.
  assert (Hopen : exists y, out (xmssmt_core_sign_open_w (row_params r skb) mbuf (mt_sign (row_sp r) sks prfk rt seed idx m ++ m) (rt ++ seed)) = Ok y).
  { destruct (open_spec (row_params r skb) (row_hash r) Hpk Hht mbuf (mt_sign (row_sp r) sks prfk rt seed idx m ++ m) (rt ++ seed) m) as (m' & Ho & _).
    - rewrite app_length, Hsig. lia.
    - rewrite Hsig. symmetry. apply skipn_app_len. lia.
    - replace (index_bytes (row_params r skb)) with (idx_size r) by (symmetry; exact (p_ib r)). unfold mt_sign. cbv zeta.
      rewrite <- !app_assoc, firstn_app_len by (now rewrite toByte_length). apply toByte_ok.
    - rewrite row_n, app_length. lia.
    - rewrite app_length. lia.
    - rewrite ew_core_open, Ho. eauto. }
  destruct Hopen as [y Hy]. destruct X as [_ X2].
  { exact F0. } { exact F1. } { exact F2. } { exact F3. } { lia. } { rewrite app_length; lia. } { now apply firstn_app_len. }
  { rewrite skipn_app_len by auto. apply firstn_all2. lia. } { exact Hmb. }
  rewrite (X2 y Hy).
  pose proof (both_sum skb sks seed M idx ltac:(lia) (proj2 HM) Hpk Hht) as Hs. unfold both_hashes. lia.
Qed.
End Row.

(** no hash call before the parameter set is known *)
Lemma open_unknown {E : Env} mt c m mlen sm pk : bytes_ok (firstn 4 pk) -> (forall r, In r (rows mt) -> firstn 4 pk <> toByte (r_oid r) 4) -> hashes (open_work mt c m mlen sm pk) = 0%N.
Proof.
  intros Hb Hn. unfold open_work.
  assert (Hw : forall parse, (forall skb p0 oid, ~ In oid (map r_oid (rows mt)) -> parse skb p0 oid = Ok None) -> hashes (open_wrapper_w parse (c_sk_bytes c) m mlen sm pk) = 0%N).
  { intros parse Hp. unfold open_wrapper_w. destruct (oid_of_bytes pk) as [oid| |] eqn:Eo; [|reflexivity|reflexivity]. rewrite cbind_ok.
    assert (H4 : 4 <= length pk). { do 4 (destruct pk as [|? pk]; [discriminate Eo|]). cbn. lia. }
    destruct (N.ltb_spec (nth 0 pk 0%N) 128) as [H0|H0]; [|rewrite oid_of_bytes_ub in Eo by assumption; discriminate].
    rewrite oid_of_bytes_spec in Eo by assumption. injection Eo as <-.
    rewrite Hp; [rewrite cbind_ok; reflexivity|]. intros Hin. apply in_map_iff in Hin as (r & Ho & Hr). apply (Hn r Hr). rewrite Ho.
    assert (Hl : length (firstn 4 pk) = 4) by (rewrite firstn_length; lia). pose proof (toByte_os2ip (firstn 4 pk) Hb) as Ht. rewrite Hl in Ht. now symmetry. }
  destruct mt; apply Hw; intros skb p0 oid Hi; [exact (parse_reject true skb p0 oid Hi)|exact (parse_reject false skb p0 oid Hi)].
Qed.
