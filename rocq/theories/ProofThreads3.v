From Verif Require Import Base Lib ModelUtils ModelParams ModelCommons ModelCore ModelCoreFast ModelXmss SpecRfc SpecParams SpecApi SpecSec SpecFast SpecForge ProofUtils ProofCore ProofApi ProofHistory ProofMain ProofForge2 ProofBoth.
From Verif Require ProofFast6.
From Verif Require Import ModelThreads SpecThreads ProofThreads.

Lemma covered_dec (calls : list (nat * N)) (got : nat -> nat) i k :
  (exists t x len, t < k /\ nth_error calls t = Some (x, len) /\ x <= i < x + got t) \/
  (forall t x len, t < k -> nth_error calls t = Some (x, len) -> i < x \/ x + got t <= i).
Proof.
  induction k as [|k IH]; [right; lia|]. destruct IH as [(t & x & len & A & B)|A]; [left; exists t, x, len; split; [lia|exact B]|].
  destruct (nth_error calls k) as [[x len]|] eqn:Hc.
  - destruct (Nat.le_gt_cases x i); [destruct (Nat.lt_ge_cases i (x + got k))|].
    + left. exists k, x, len. auto.
    + right. intros t y l Ht Hy. destruct (Nat.eq_dec t k) as [->|]; [rewrite Hc in Hy; injection Hy as <- <-; auto|apply (A t y l); [lia|exact Hy]].
    + right. intros t y l Ht Hy. destruct (Nat.eq_dec t k) as [->|]; [rewrite Hc in Hy; injection Hy as <- <-; auto|apply (A t y l); [lia|exact Hy]].
  - right. intros t y l Ht Hy. destruct (Nat.eq_dec t k) as [->|]; [congruence|apply (A t y l); [lia|exact Hy]].
Qed.
Lemma served_byte_ok dev mem calls w got src : (forall i, (dev i < 256)%N) -> bytes_ok mem -> served dev mem calls w got src -> forall i, (nth i (w_mem w) 0 < 256)%N.
Proof.
  intros Hd Hm S i. destruct (covered_dec calls got i (length calls)) as [(t & x & len & Ht & Hc & Hi)|Hout].
  - replace i with (x + (i - x)) by lia. destruct (served_bytes _ _ _ _ _ _ S t x len (i - x) Hc ltac:(lia)) as [-> _]. apply Hd.
  - rewrite (served_rest _ _ _ _ _ _ S).
    + destruct (Nat.lt_ge_cases i (length mem)) as [Hi|Hi]; [apply (proj1 (Forall_forall _ _) Hm), nth_In, Hi|rewrite nth_overflow by exact Hi; reflexivity].
    + intros t x len Hc. apply (Hout t x len); [|exact Hc]. apply nth_error_Some. congruence.
Qed.
Lemma threads_keys {E : Env} (HE : env_ok E) mt r (Hr : In r (rows mt)) core lim size (Hs : signer r core lim size) dev mem calls fd es :
  (forall i, (dev i < 256)%N) -> bytes_ok mem -> separate mem calls ->
  exists w src, steps dev (start fd mem calls) es = Ok w /\
    (forall t u x y len len' j k, nth_error calls t = Some (x, len) -> nth_error calls u = Some (y, len') -> returned w t -> returned w u ->
       j < N.to_nat len -> k < N.to_nat len' -> src t j = src u k -> t = u /\ j = k) /\
    forall t x, nth_error calls t = Some (x, N.of_nat (3 * r_n r)) -> returned w t -> forall pk0 sk0,
      length pk0 = 4 + pk_size r -> length sk0 = 4 + size -> bytes_ok sk0 ->
      exists pk sk, keypair mt core pk0 sk0 (r_oid r) (fun j => nth (x + j) (w_mem w) 0%N) = Ok (0%Z, pk, sk) /\
        sk_field r 0 sk = map (fun j => dev (src t j)) (seq 0 (r_n r)) /\
        sk_field r 1 sk = map (fun j => dev (src t j)) (seq (r_n r) (r_n r)) /\
        sk_field r 3 sk = map (fun j => dev (src t j)) (seq (2 * r_n r) (r_n r)).
Proof.
  intros Hd Hm Hsep. destruct (threads_safe dev mem calls Hsep fd es) as (w & got & src & Hrun & S). exists w, src. split; [exact Hrun|]. split.
  - intros t u x y len len' j k Ht Hu Rt Ru Hj Hk He.
    apply (served_once _ _ _ _ _ _ S t u j k); [apply nth_error_Some; congruence|apply nth_error_Some; congruence| | |exact He].
    + now rewrite (proj2 (served_all _ _ _ _ _ _ S t x len Ht) Rt).
    + now rewrite (proj2 (served_all _ _ _ _ _ _ S u y len' Hu) Ru).
  - intros t x Ht Rt pk0 sk0 Lp Ls Bs.
    pose proof (proj2 (served_all _ _ _ _ _ _ S t x _ Ht) Rt) as Hgot. rewrite Nnat.Nat2N.id in Hgot.
    destruct (signer_key HE mt r Hr core lim size Hs (fun j => nth (x + j) (w_mem w) 0%N) pk0 sk0) as (a & b & ct & d & ext & Hf & Hkm & Hkp); [intros i; now apply (served_byte_ok dev mem calls w got src)|exact Lp|exact Ls|exact Bs|].
    exists (public_key r ct d), (secret_key r 0 a b ct d ++ ext). split; [exact Hkp|].
    assert (Hmap : forall o k, o + k <= 3 * r_n r -> map (fun j => nth (x + j) (w_mem w) 0%N) (seq o k) = map (fun j => dev (src t j)) (seq o k)).
    { intros o k Hok. apply map_ext_in. intros j Hj. apply in_seq in Hj. apply (served_bytes _ _ _ _ _ _ S t x _ j Ht). lia. }
    unfold key_material in Hkm. rewrite !Hmap in Hkm by lia.
    pose proof (ProofFast6.fsk_parts r 0 a b ct d ext Hf) as Hp. destruct Hp as (_ & _ & _ & P0 & P1 & _ & P3).
    rewrite P0, P1, P3. injection Hkm as <- <- _ <-. auto.
Qed.
