(** Positions in a tree of trees: base-2^H digits of the index, carries, and the count of
    signatures at which all lower layers are idle. *)
From Verif Require Import Base Lib ProofSched.

Lemma N_succ_div x m : (m <> 0)%N ->
  (((x + 1) mod m = 0 /\ x mod m = m - 1 /\ (x + 1) / m = x / m + 1) \/
   ((x + 1) mod m <> 0 /\ x mod m < m - 1 /\ (x + 1) mod m = x mod m + 1 /\ (x + 1) / m = x / m))%N.
Proof.
  intros Hm. pose proof (N.div_mod x m Hm) as D. pose proof (N.mod_lt x m Hm) as B.
  destruct (N.eq_dec (x mod m) (m - 1)) as [E|E].
  - left. assert (X : (x + 1 = (x / m + 1) * m)%N) by nia.
    rewrite X, N.mod_mul, N.div_mul by exact Hm. auto.
  - right. assert (X : (x + 1 = m * (x / m) + (x mod m + 1))%N) by lia.
    assert (B2 : (x mod m + 1 < m)%N) by lia.
    pose proof (N.div_unique (x + 1) m _ _ B2 X) as D2. pose proof (N.mod_unique (x + 1) m _ _ B2 X) as M2. lia.
Qed.

Section Digits.
Variable H : nat.
Notation B := (2 ^ N.of_nat H)%N.

Definition hi (idx : N) (i : nat) : N := (idx / 2 ^ N.of_nat (H * i))%N.
Definition dig (idx : N) (i : nat) : nat := N.to_nat (hi idx i mod B)%N.
Fixpoint full (idx : N) (i : nat) : Prop := match i with O => True | S i' => full idx i' /\ dig idx i' = 2 ^ H - 1 end.

Lemma pN k : (2 ^ N.of_nat k <> 0)%N.
Proof. apply N.pow_nonzero. lia. Qed.
Lemma pB : N.to_nat B = 2 ^ H.
Proof. rewrite <- (Nat2N.id (2 ^ H)). f_equal. now rewrite Nat2N.inj_pow. Qed.
Lemma pBn : B = N.of_nat (2 ^ H).
Proof. now rewrite Nat2N.inj_pow. Qed.
Lemma hi_0 idx : hi idx 0 = idx.
Proof. unfold hi. rewrite Nat.mul_0_r. apply N.div_1_r. Qed.
Lemma hi_S idx i : hi idx (S i) = (hi idx i / B)%N.
Proof. unfold hi. rewrite N.div_div by apply pN. rewrite <- N.pow_add_r. do 2 f_equal. lia. Qed.
Lemma dig_lt idx i : dig idx i < 2 ^ H.
Proof. unfold dig. rewrite <- pB. pose proof (N.mod_lt (hi idx i) B (pN H)). lia. Qed.
Lemma dig_N idx i : N.of_nat (dig idx i) = (hi idx i mod B)%N.
Proof. unfold dig. apply N2Nat.id. Qed.
Lemma full_dec idx i : {full idx i} + {~ full idx i}.
Proof.
  induction i as [|i IH]; [left; exact I|]. cbn [full]. destruct IH as [A|A]; [|right; tauto].
  destruct (Nat.eq_dec (dig idx i) (2 ^ H - 1)); [left; auto|right; tauto].
Qed.
Lemma full_lt idx i j : j <= i -> full idx i -> full idx j.
Proof. induction i as [|i IH]; intros Hj Hf; [now replace j with 0 by lia|]. destruct (Nat.eq_dec j (S i)) as [->|]; [exact Hf|]. apply IH; [lia|apply Hf]. Qed.
Lemma full_dig idx i j : j < i -> full idx i -> dig idx j = 2 ^ H - 1.
Proof. intros Hj Hf. apply (full_lt idx i (S j)) in Hf; [apply Hf|lia]. Qed.

(** the carry *)
Lemma hi_step idx i : (full idx i -> hi (idx + 1) i = (hi idx i + 1)%N) /\ (~ full idx i -> hi (idx + 1) i = hi idx i).
Proof.
  induction i as [|i [IH1 IH2]]; [split; [intros _; now rewrite !hi_0|cbn; tauto]|]. rewrite !hi_S. cbn [full]. split.
  - intros [F D]. rewrite (IH1 F). destruct (N_succ_div (hi idx i) B (pN H)) as [(_ & _ & X)|(_ & X & _)]; [exact X|].
    exfalso. rewrite <- dig_N, D in X. rewrite pBn in X. pose proof (pow2_pos_nat H). lia.
  - intros F. destruct (full_dec idx i) as [Fi|Fi]; [|now rewrite IH2].
    rewrite (IH1 Fi). destruct (N_succ_div (hi idx i) B (pN H)) as [(_ & X & _)|(_ & _ & _ & X)]; [|exact X].
    exfalso. apply F. split; [exact Fi|]. rewrite <- dig_N, pBn in X. pose proof (pow2_pos_nat H). lia.
Qed.
Lemma dig_full idx i : full idx (S i) -> dig (idx + 1) i = 0.
Proof.
  intros [F D]. unfold dig. rewrite (proj1 (hi_step idx i) F).
  destruct (N_succ_div (hi idx i) B (pN H)) as [(X & _)|(_ & X & _)]; [now rewrite X|].
  exfalso. rewrite <- dig_N, D in X. rewrite pBn in X. pose proof (pow2_pos_nat H). lia.
Qed.
Lemma dig_next idx i : full idx i -> ~ full idx (S i) -> dig (idx + 1) i = dig idx i + 1 /\ dig idx i + 1 < 2 ^ H.
Proof.
  intros F NF. unfold dig at 1. rewrite (proj1 (hi_step idx i) F).
  destruct (N_succ_div (hi idx i) B (pN H)) as [(_ & X & _)|(_ & _ & X & _)].
  - exfalso. apply NF. split; [exact F|]. rewrite <- dig_N, pBn in X. pose proof (pow2_pos_nat H). lia.
  - rewrite X. pose proof (dig_lt (idx + 1) i) as L. unfold dig in L at 1. rewrite (proj1 (hi_step idx i) F), X in L.
    rewrite <- dig_N in *. split; lia.
Qed.
Lemma dig_same idx i : ~ full idx i -> dig (idx + 1) i = dig idx i.
Proof. intros F. unfold dig. now rewrite (proj2 (hi_step idx i) F). Qed.
Lemma full_mod idx i : full idx i <-> ((idx + 1) mod 2 ^ N.of_nat (H * i) = 0)%N.
Proof.
  pose proof (hi_step idx i) as [S1 S2]. unfold hi in *.
  destruct (N_succ_div idx (2 ^ N.of_nat (H * i)) (pN _)) as [(A & _ & C)|(A & _ & _ & C)].
  - split; [auto|]. intros _. destruct (full_dec idx i) as [F|F]; [exact F|]. rewrite (S2 F) in C. lia.
  - split; [|lia]. intros F. rewrite (S1 F) in C. lia.
Qed.
Lemma full_bound idx d : (idx + 1 < 2 ^ N.of_nat (H * d))%N -> ~ full idx d.
Proof. intros L F. apply full_mod in F. rewrite N.mod_small in F by exact L. lia. Qed.
(** the layer of the carry *)
Lemma carry idx d : (idx + 1 < 2 ^ N.of_nat (H * d))%N -> exists m, m < d /\ full idx m /\ ~ full idx (S m).
Proof.
  intros L. apply full_bound in L. clear - L. induction d as [|d IH]; [exfalso; apply L; exact I|].
  destruct (full_dec idx d) as [F|F]; [exists d; auto|]. destruct (IH F) as (m & A & C). exists m. split; [lia|exact C].
Qed.
Lemma not_full_up idx i j : i <= j -> ~ full idx i -> ~ full idx j.
Proof. intros Hij F G. apply F. now apply (full_lt idx j i). Qed.
Lemma hi_lt idx i d : (idx < 2 ^ N.of_nat (H * d))%N -> i <= d -> (hi idx i < 2 ^ N.of_nat (H * (d - i)))%N.
Proof.
  intros L Hi. unfold hi. apply N.div_lt_upper_bound; [apply pN|]. rewrite <- N.pow_add_r.
  eapply N.lt_le_trans; [exact L|]. apply N.eq_le_incl. f_equal. nia.
Qed.

Hypothesis H3 : 3 <= H.

(** digits at which a layer has no running instance *)
Definition goodb (q : nat) : bool := (q =? 0) || (q =? 2 ^ H - 2).
Fixpoint allgood (idx : N) (i : nat) : bool := match i with O => true | S i' => goodb (dig idx i') && allgood idx i' end.
Definition gd (q : nat) : nat := (if 0 <? q then 1 else 0) + (if 2 ^ H - 2 <? q then 1 else 0).
Fixpoint cnt (idx : N) (i : nat) : nat :=
  match i with O => 0 | S i' => gd (dig idx i') * 2 ^ i' + (if goodb (dig idx i') then cnt idx i' else 0) end.

Lemma H8 : 8 <= 2 ^ H.
Proof. change 8 with (2 ^ 3). now apply Nat.pow_le_mono_r. Qed.
Lemma goodb_last : goodb (2 ^ H - 1) = false.
Proof. unfold goodb. pose proof H8. apply orb_false_iff. split; apply Nat.eqb_neq; lia. Qed.
Lemma gd_last : gd (2 ^ H - 1) = 2.
Proof. unfold gd. pose proof H8. destruct (Nat.ltb_spec 0 (2 ^ H - 1)), (Nat.ltb_spec (2 ^ H - 2) (2 ^ H - 1)); lia. Qed.
Lemma gd_step q : q + 1 < 2 ^ H -> gd (q + 1) = gd q + (if goodb q then 1 else 0).
Proof.
  intros L. unfold gd, goodb. pose proof H8.
  destruct (Nat.ltb_spec 0 (q + 1)), (Nat.ltb_spec 0 q), (Nat.ltb_spec (2 ^ H - 2) (q + 1)), (Nat.ltb_spec (2 ^ H - 2) q), (Nat.eqb_spec q 0), (Nat.eqb_spec q (2 ^ H - 2)); cbn [orb]; lia.
Qed.
Lemma cnt_full idx i : 1 <= i -> full idx i -> cnt idx i = 2 ^ i.
Proof.
  destruct i as [|i]; [lia|]. intros _ [F D]. cbn [cnt]. rewrite D, gd_last, goodb_last. rewrite Nat.pow_succ_r'. lia.
Qed.
Lemma cnt_zero idx i : (forall j, j < i -> dig idx j = 0) -> cnt idx i = 0.
Proof.
  induction i as [|i IH]; intros Hz; [reflexivity|]. cbn [cnt]. rewrite (Hz i) by lia. cbn. rewrite IH; [destruct (2 ^ H - 2 <? 0) eqn:E0; [apply Nat.ltb_lt in E0; lia|reflexivity]|].
  intros j Hj. apply Hz. lia.
Qed.
Lemma cnt_after_full idx i : full idx i -> cnt (idx + 1) i = 0.
Proof. intros F. apply cnt_zero. intros j Hj. apply dig_full. apply (full_lt idx i); [lia|exact F]. Qed.
Lemma full_not_good idx i : 1 <= i -> full idx i -> allgood idx i = false.
Proof. destruct i as [|i]; [lia|]. intros _ [F D]. cbn [allgood]. now rewrite D, goodb_last. Qed.
Lemma cnt_step idx i : ~ full idx i -> cnt (idx + 1) i = cnt idx i + (if allgood idx i then 1 else 0).
Proof.
  induction i as [|i IH]; intros F; [exfalso; apply F; exact I|]. cbn [cnt allgood].
  destruct (full_dec idx i) as [Fi|Fi].
  - destruct (dig_next idx i Fi F) as [D L]. rewrite D, (gd_step _ L), (cnt_after_full idx i Fi).
    destruct i as [|i].
    + cbn [cnt allgood Nat.pow]. rewrite andb_true_r. destruct (goodb (dig idx 0)), (goodb (dig idx 0 + 1)); lia.
    + rewrite (cnt_full idx (S i)), (full_not_good idx (S i)) by (lia || exact Fi). rewrite andb_false_r.
      destruct (goodb (dig idx (S i))), (goodb (dig idx (S i) + 1)); lia.
  - rewrite (dig_same idx i Fi), (IH Fi). destruct (goodb (dig idx i)); cbn [andb]; lia.
Qed.
Lemma allgood_first idx i : 1 <= i -> allgood idx i = true -> goodb (dig idx 0) = true.
Proof. destruct i as [|i]; [lia|]. intros _. induction i as [|i IH]; cbn [allgood]; intros A; apply andb_prop in A as [A1 A2]; [exact A1|]. apply IH. exact A2. Qed.
Lemma good_not_full idx : goodb (dig idx 0) = true -> ~ full idx 1.
Proof. intros G [_ D]. rewrite D, goodb_last in G. discriminate. Qed.
End Digits.
