(** Fast core, the parameter sets with too many layers (40/8 and 60/12): what the public API
    shows when the number of calls reaches the schedule's limit. *)
From Verif Require Import Base ModelUtils ModelParams ModelCommons ModelCore ModelCoreFast ModelXmss.
From Verif Require Import SpecRfc SpecFips202 SpecParams SpecApi SpecComp SpecFast Lib ProofUtils ProofHash ProofCore ProofParams ProofApi ProofHistory ProofMain.
From Verif Require Import ProofSched ProofBds1 ProofBds2 ProofBds3 ProofBds4 ProofFast1 ProofFast2 ProofFast3 ProofFast4 ProofFast5 ProofFast6 ProofFast7 ProofTree ProofMt1 ProofMt2 ProofMt4 ProofMt5 ProofMt6 ProofMt7 ProofMt8.

Section MtRow.
Context {E : Env}.
Hypothesis HE : env_ok E.
Variable r : row.
Hypothesis Hr : In r (rows true).
Hypothesis Hmany : ~ few_layers r.
Notation p := (row_params r (sk_fast r)).
Notation P := (row_sp r).
Notation n := (r_n r).
Notation ib := (idx_size r).
Notation J := (fast_limit r).
Let Hp := fp_ok true r Hr.
Let HH := fp_hash HE true r Hr.
Let Hk := fp_kH true r Hr.
Let H3 := mr_H3 r Hr.
Let HU := mr_HU r Hr.

Lemma many_facts : sp_th P = 5 /\ 4 < r_d r /\ J = (2 ^ 20)%N.
Proof.
  assert (Hx : forallb (fun r => (r_d r <=? r_h r / r_d r / 2 + 2) || ((r_h r / r_d r =? 5) && (4 <? r_d r) && (fast_limit r =? 2 ^ 20)%N)) (rows true) = true) by (vm_compute; reflexivity).
  rewrite forallb_forall in Hx. specialize (Hx r Hr). unfold few_layers in Hmany. unfold sp_th. cbn [sp_h sp_d row_sp].
  apply orb_true_iff in Hx as [A|A]; [apply Nat.leb_le in A; contradiction|]. apply andb_true_iff in A as [A A3]. apply andb_true_iff in A as [A1 A2].
  apply Nat.eqb_eq in A1. apply Nat.ltb_lt in A2. apply N.eqb_eq in A3. auto.
Qed.
Let U2 : (tree_height p - bds_k p) / 2 = 2.
Proof. rewrite (mr_U r). destruct many_facts as (-> & _). reflexivity. Qed.
Let Hud : (tree_height p - bds_k p) / 2 + 2 < p_d p.
Proof. rewrite U2, row_dd. destruct many_facts as (_ & A & _). exact A. Qed.
Let EJ : J = (2 ^ N.of_nat (tree_height p * ((tree_height p - bds_k p) / 2 + 2)))%N.
Proof. rewrite U2, (fp_th r). destruct many_facts as (-> & _ & ->). reflexivity. Qed.
Let H5 : tree_height p <= 5.
Proof. rewrite (fp_th r). destruct many_facts as (-> & _). apply le_n. Qed.

Definition goodb (sks seed : bytes) (i : N) (ext : bytes) : Prop :=
  ((i < J)%N /\ goodm r sks seed i ext) \/
  (i = J /\ exists ss ws, broken p (row_hash r) sks seed i ss ws /\ ext = concat (map (store_state p) ss) ++ ws).

Lemma bstep sks prfk rt seed : length sks = n -> length prfk = n -> length rt = n -> length seed = n ->
  forall i ext sm smlen m, goodb sks seed i ext -> (i + 1 < J + 1)%N -> sig_size r + length m <= length sm ->
  exists ext', goodb sks seed (i + 1) ext' /\
  fsg true p (sk_layout (toByte i ib) sks prfk rt seed ext) sm smlen m =
  Ok (mkSign 0 (sk_layout (toByte (i + 1) ib) sks prfk rt seed ext')
       (mt_sign P sks prfk rt seed i m ++ m ++ skipn (sig_size r + length m) sm) (sig_size r + length m)).
Proof.
  intros L1 L2 L3 L4 i ext sm smlen m [[Hi Hg]|[Hi _]] Hlt Hsm; [|clear - Hi Hlt; lia].
  destruct (N.eq_dec (i + 1) J) as [Ej|Hne].
  - destruct Hg as (ss & ws & Hinv & Hbh & ->).
    pose proof (fail_sign p (row_hash r) Hp HH Hk H3 HU) as Hfs. rewrite row_n, sp_of_row, fp_sig, (fp_ib r) in Hfs.
    destruct (Hfs sks seed L1 L4 prfk rt L2 L3 i ss ws sm m smlen [] H5 Hud) as (ss' & ws' & Hb & Heq).
    { rewrite Ej. exact EJ. } { exact Hinv. } { apply Hbh; destruct many_facts as (-> & A & _); [apply le_n|exact A]. } { exact Hsm. }
    exists (concat (map (store_state p) ss') ++ ws'). split; [right; split; [exact Ej|exists ss', ws'; auto]|].
    rewrite !app_nil_r in Heq. exact Heq.
  - destruct (mstep HE r Hr sks prfk rt seed L1 L2 L3 L4 i ext sm smlen m Hg) as (ext' & Hg' & Heq); [clear - Hlt Hne; lia|exact Hsm|].
    exists ext'. split; [left; split; [clear - Hlt Hne; lia|exact Hg']|exact Heq].
Qed.
Lemma goodb_0 sks seed ext : goodm r sks seed 0 ext -> goodb sks seed 0 ext.
Proof. intros Hg. left. split; [|exact Hg]. destruct many_facts as (_ & _ & ->). reflexivity. Qed.

(** the signature made by the next call; [G] is the stale top node *)
Definition bad_layers (sks prfk rt seed m G : bytes) : bytes :=
  concat (map (blayer p (row_hash r) sks seed G (H_msg P (PRF P prfk (toByte J 32)) rt J m) J) (seq 0 (r_d r))).
Lemma bsign sks prfk rt seed ext sm smlen m : length sks = n -> length prfk = n -> length rt = n -> length seed = n ->
  goodb sks seed J ext -> sig_size r + length m <= length sm ->
  exists G sk', length G = n /\
  sign true fast_core (secret_key r J sks prfk rt seed ++ ext) sm smlen m =
  Ok (mkSign 0 sk' ((toByte J ib ++ PRF P prfk (toByte J 32) ++ bad_layers sks prfk rt seed m G) ++ m ++ skipn (sig_size r + length m) sm) (sig_size r + length m)).
Proof.
  intros L1 L2 L3 L4 [[Hi _]|[_ (ss & ws & Hb & ->)]] Hsm; [clear - Hi; lia|].
  pose proof (broken_sign p (row_hash r) Hp HH Hk H3 HU) as Hfs. rewrite row_n, sp_of_row, fp_sig, (fp_ib r), row_dd in Hfs.
  destruct (Hfs sks seed L1 L4 prfk rt L2 L3 J ss ws sm m smlen []) as (G & ss' & ws' & LG & _ & _ & Heq).
  { rewrite <- (row_dd r (sk_fast r)). exact Hud. } { exact EJ. } { exact Hb. } { exact Hsm. }
  exists G. rewrite <- layout_ext, (fsign_eq true r Hr). rewrite !app_nil_r in Heq. unfold fsg. rewrite Heq, bind_ok. cbn [so_rc so_sk so_sm so_smlen].
  eexists. split; [exact LG|]. reflexivity.
Qed.

(** the next tree of layer 3 lacks a leaf when its turn comes *)
Lemma late_tree rnd pk0 sk0 cs pk sk : (forall i, (rnd i < 256)%N) ->
  length pk0 = 4 + pk_size r -> length sk0 = 4 + fast_size r -> bytes_ok sk0 ->
  keypair true fast_core pk0 sk0 (r_oid r) rnd = Ok (0%Z, pk, sk) -> Forall (call_ok r) cs -> (N.of_nat (length cs) + 1 = 2 ^ 20)%N ->
  exists sk' os ss ws nx, sign_run true fast_core sk cs = Ok (sk', os) /\
    xmssmt_deserialize_state p (skipn 4 sk') = Ok (ss, ws) /\
    nth_error ss (r_d r + 3) = Some nx /\ st_next_leaf nx = 31%N.
Proof.
  intros Hb Lpk Lsk Bsk Hkp Hok Hl. destruct many_facts as (A1 & A2 & A3).
  destruct (mt_reach HE r Hr rnd pk0 sk0 cs pk sk Hb Lpk Lsk Bsk Hkp Hok) as (sk' & os & ss & ws & R1 & R2 & R3 & R4 & Hinv & Hbh).
  { rewrite A3. clear - Hl. lia. }
  specialize (Hbh ltac:(rewrite A1; apply le_n) ltac:(rewrite A1; exact A2)).
  pose proof Hinv as (I1 & _).
  assert (Hlt : r_d r + 3 < length ss) by (rewrite I1; unfold nstates; rewrite row_dd; clear - A2; lia).
  destruct (nth_error ss (r_d r + 3)) as [nx|] eqn:En; [|apply nth_error_None in En; clear - En Hlt; lia].
  exists sk', os, ss, ws, nx. split; [exact R1|]. split; [exact R2|]. split; [exact En|].
  unfold behind in Hbh. rewrite U2, row_dd in Hbh. rewrite (Hbh nx En).
  assert (F : full (tree_height p) (N.of_nat (length cs)) (S 3)).
  { apply full_mod. rewrite (fp_th r), A1, Hl. reflexivity. }
  destruct F as [_ D]. change (2 + 1) with 3. rewrite D, (fp_th r), A1. reflexivity.
Qed.
End MtRow.
