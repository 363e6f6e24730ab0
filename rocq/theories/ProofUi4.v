(** Histories of tool runs with crashes, both cores. *)
From Coq Require Import String.
From Verif Require Import Base Lib ModelUtils ModelParams ModelCore ModelCoreFast ModelCommons ModelXmss ModelUi
  SpecRfc SpecParams SpecApi SpecComp SpecFast SpecUi ProofUtils ProofHash ProofCore ProofParams ProofApi ProofHistory ProofMain ProofUi ProofUi2 ProofFast3 ProofFast6 ProofAny ProofUi3.

Section Cores.
Context {E : Env}.
Hypothesis HE : env_ok E.
Variables (mt : bool) (rp r : row).
Hypothesis Hrp : In rp (rows mt).
Hypothesis Hr : In r (rows mt).
Notation ib := (idx_size r).
Notation top := (2 ^ N.of_nat (r_h r))%N.

Lemma signer_acc core lim size : signer r core lim size ->
  (forall q, In q (rows mt) -> exists b, forall p0, ProofParams.parse_oid mt (c_sk_bytes core) p0 (r_oid q) = Ok (Some (row_params q b))) /\
  exists skb, (forall p0, ProofParams.parse_oid mt (c_sk_bytes core) p0 (r_oid r) = Ok (Some (row_params r skb))) /\
    ModelParams.sk_bytes (row_params r skb) = size /\ ModelParams.sig_bytes (row_params r skb) = sig_size r /\ sk_size r <= size.
Proof.
  intros [|].
  - split; [intros q Hq; exists (sk_ref q); intros p0; now apply parse_accept_ref|]. exists (sk_ref r).
    split; [intros p0; now apply parse_accept_ref|]. split; [apply p_sk|]. split; [apply p_sig|lia].
  - split; [intros q Hq; exists (sk_fast q); intros p0; now apply parse_accept_fast|]. exists (sk_fast r).
    split; [intros p0; now apply parse_accept_fast|]. split; [rewrite (fp_sk mt r Hr); symmetry; apply (fast_size_eq mt r Hr)|]. split; [apply fp_sig|].
    rewrite (fast_size_eq mt r Hr). unfold sk_size. lia.
Qed.
Lemma fast_bigger : fast_size r <> sk_size r.
Proof.
  rewrite (fast_size_eq mt r Hr), (fp_ser r). unfold sk_size. pose proof (fp_d mt r Hr) as Hd. rewrite row_dd in Hd.
  set (x := (sp_th _ + 1) * _ + _). assert (4 <= x) by (unfold x; lia). intros Hx. clearbody x. generalize dependent ((r_d r - 1) * (sp_len (row_sp r) * r_n r)). intros y Hx. assert (Hy : (2 * r_d r - 1) * x = 0) by (generalize dependent ((2 * r_d r - 1) * x); intros; lia). clear - Hd H Hy. nia.
Qed.
Lemma signer_good core lim size : r_h r < 8 * ib -> signer r core lim size -> exists full, good_step mt r core (bkey r size full).
Proof. intros Hh [|]; [exists true; now apply ref_good|exists false; now apply fast_good]. Qed.

Section Hist.
Variables (core : core) (lim : N) (size : nat) (pk sk rest : bytes) (l : list (bytes * bytes * disk)).
Hypothesis Hs : signer r core lim size.
Hypothesis Hh : r_h r < 8 * ib.
Hypothesis Hpk : key_of rp (pk_size rp) pk.
Hypothesis Hsk : key_of r size sk.
Hypothesis Hruns : runs mt core (pk ++ sk ++ rest) l.
Notation stored kf := (sk_index r (skipn (List.length pk) kf)).

Lemma hist_each j kfj mj sj : nth_error l j = Some (kfj, mj, sj) ->
  (exists skj o q, kfj = pk ++ skj ++ rest /\ List.length skj = 4 + size /\ firstn 4 skj = toByte (r_oid r) 4 /\ (bytes_ok (firstn ib (skipn 4 skj)) /\ (size = sk_size r -> bytes_ok skj)) /\
     stored kfj = sk_index r skj /\
     ((stored kfj < top)%N -> forall f, f < 4 -> sk_field r f skj = sk_field r f sk) /\
     tool_call mt core r mj skj = Ok o /\ d_out sj = firstn q (signed_message o)) /\
  (stored (pk ++ sk ++ rest) <= stored kfj)%N /\
  ((stored kfj + 1 < top)%N -> ib <= List.length (d_out sj) -> sm_index r (d_out sj) = stored kfj).
Proof.
  intros Hj. destruct (signer_acc core lim size Hs) as (Hacc & skb & A1 & A2 & A3 & A4).
  assert (HG : exists full, (size = sk_size r -> full = true) /\ good_step mt r core (bkey r size full)).
  { destruct Hs; [exists true; split; [auto|now apply ref_good]|exists false; split; [intros Hx; exfalso; now apply fast_bigger|now apply fast_good]]. }
  destruct HG as (full & Hfull & Hg).
  set (F := fun f => sk_field r f sk).
  assert (HKk : forall x, K r size full F x -> List.length x = 4 + size /\ firstn 4 x = toByte (r_oid r) 4 /\ bytes_ok (firstn ib (skipn 4 x))) by (intros x [(X1 & X2 & X3 & _) _]; auto).
  assert (HK0 : K r size full F sk).
  { destruct Hsk as (S1 & S2 & S3). split; [|unfold F; auto]. split; [exact S1|]. split; [exact S2|]. split; [now apply bytes_ok_firstn, bytes_ok_skipn|auto]. }
  assert (Hib : ib <= size) by (unfold sk_size in A4; lia).
  destruct (runs_each mt core rp r size skb pk rest Hrp Hr Hacc A1 A2 A3 Hpk (K r size full F) HKk (fun x x' k => K_torn' r Hh size full F x x' k A4) Hib
    (K_step' mt r Hh core size full F Hg) _ l Hruns sk eq_refl HK0 j kfj mj sj Hj) as ((skj & o & q & I1 & I2 & I3 & I4) & I5 & I6).
  split; [|split; [exact I5|exact I6]]. exists skj, o, q. split; [exact I1|]. destruct (HKk _ I2) as (X1 & X2 & X3). split; [exact X1|]. split; [exact X2|].
  split; [split; [exact X3|intros Hc; apply I2; auto]|].
  assert (Es : stored kfj = sk_index r skj).
  { rewrite I1. rewrite skipn_app_len by reflexivity. unfold sk_index. f_equal.
    rewrite skipn_app, firstn_app, skipn_length. replace (ib - (List.length skj - 4)) with 0 by lia. now rewrite firstn_O, app_nil_r. }
  split; [exact Es|]. split; [|split; [exact I3|exact I4]]. intros Hi. rewrite Es in Hi. exact (proj2 I2 Hi).
Qed.

Lemma hist_order i j kfi mi si kfj mj sj : i < j -> nth_error l i = Some (kfi, mi, si) -> nth_error l j = Some (kfj, mj, sj) ->
  (stored kfi <= stored kfj)%N /\ (~ In KeyClose (d_todo si) -> (stored kfi < top)%N -> (stored kfi < stored kfj)%N).
Proof.
  intros Hij Hi Hj. destruct (signer_acc core lim size Hs) as (Hacc & skb & A1 & A2 & A3 & A4).
  destruct (signer_good core lim size Hh Hs) as (full & Hg).
  set (F := fun f => sk_field r f sk).
  assert (HKk : forall x, K r size full F x -> List.length x = 4 + size /\ firstn 4 x = toByte (r_oid r) 4 /\ bytes_ok (firstn ib (skipn 4 x))) by (intros x [(X1 & X2 & X3 & _) _]; auto).
  assert (HK0 : K r size full F sk).
  { destruct Hsk as (S1 & S2 & S3). split; [|unfold F; auto]. split; [exact S1|]. split; [exact S2|]. split; [now apply bytes_ok_firstn, bytes_ok_skipn|auto]. }
  assert (Hib : ib <= size) by (unfold sk_size in A4; lia).
  exact (runs_order mt core rp r size skb pk rest Hrp Hr Hacc A1 A2 A3 Hpk (K r size full F) HKk (fun x x' k => K_torn' r Hh size full F x x' k A4) Hib
    (K_step' mt r Hh core size full F Hg) _ l Hruns sk eq_refl HK0 i j kfi mi si kfj mj sj Hij Hi Hj).
Qed.
End Hist.
End Cores.
