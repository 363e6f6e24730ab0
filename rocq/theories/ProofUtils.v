(** Integer / byte string conversions (utils.c) against the specification. *)
From Verif Require Import Base Lib SpecRfc ModelUtils.
Local Open Scope N_scope.

(** ** bit lemmas *)
Lemma testbit_small b k m : b < 2 ^ k -> k <= m -> N.testbit b m = false.
Proof.
  intros Hb Hm. rewrite <- (N.mod_small b (2 ^ k)) by exact Hb. now apply N.mod_pow2_bits_high.
Qed.

Lemma land_disjoint a b k : b < 2 ^ k -> N.land (N.shiftl a k) b = 0.
Proof.
  intros Hb. apply N.bits_inj. intros m. rewrite N.land_spec, N.bits_0.
  destruct (N.ltb_spec m k) as [Hm|Hm].
  - rewrite N.shiftl_spec_low by exact Hm. reflexivity.
  - rewrite (testbit_small b k m) by assumption. apply andb_false_r.
Qed.

Lemma lor_shift_add a b k : b < 2 ^ k -> N.lor (N.shiftl a k) b = a * 2 ^ k + b.
Proof.
  intros Hb. pose proof (land_disjoint a b k Hb) as Hl.
  rewrite <- N.lxor_lor by exact Hl. rewrite <- N.add_nocarry_lxor by exact Hl.
  now rewrite N.shiftl_mul_pow2.
Qed.

Lemma land_ones_mod x k : N.land x (2 ^ k - 1) = x mod 2 ^ k.
Proof. rewrite N.sub_1_r, <- N.ones_equiv. apply N.land_ones. Qed.

Lemma land_255 x : N.land x 255 = x mod 256.
Proof. exact (land_ones_mod x 8). Qed.

Lemma pow256_S k : 256 ^ N.of_nat (S k) = 256 * 256 ^ N.of_nat k.
Proof. rewrite Nat2N.inj_succ, N.pow_succ_r'. reflexivity. Qed.
Lemma pow256_pos k : 0 < 256 ^ k.
Proof. apply N.neq_0_lt_0, N.pow_nonzero. discriminate. Qed.
Lemma pow2_pos k : 0 < 2 ^ k.
Proof. apply N.neq_0_lt_0, N.pow_nonzero. discriminate. Qed.
Lemma pow256_pow2 k : 256 ^ k = 2 ^ (8 * k).
Proof. change 256 with (2 ^ 8). now rewrite <- N.pow_mul_r. Qed.

(** ** toByte *)
Lemma toByte_length x k : length (toByte x k) = k.
Proof. unfold toByte. now rewrite map_length, seq_length. Qed.

Lemma toByte_S x k : toByte x (S k) = toByte (x / 256) k ++ [x mod 256].
Proof.
  unfold toByte. rewrite map_seq_S. f_equal.
  - apply map_ext_in. intros i Hi. apply in_seq in Hi.
    replace (S k - 1 - i)%nat with (S (k - 1 - i)) by lia.
    rewrite pow256_S, N.div_div; [reflexivity|discriminate|].
    apply N.pow_nonzero. discriminate.
  - replace (S k - 1 - (0 + k))%nat with 0%nat by lia. rewrite N.pow_0_r, N.div_1_r. reflexivity.
Qed.

Lemma toByte_ok x k : bytes_ok (toByte x k).
Proof.
  apply Forall_forall. intros b Hb. apply in_map_iff in Hb. destruct Hb as [i [<- _]].
  apply N.mod_lt. discriminate.
Qed.

Lemma ull_to_bytes_spec k : forall x, ull_to_bytes k x = toByte x k.
Proof.
  induction k as [|k IH]; intros x; [reflexivity|].
  rewrite toByte_S. cbn [ull_to_bytes]. rewrite IH, land_255.
  rewrite N.shiftr_div_pow2. reflexivity.
Qed.

Lemma toByte_mod x k m : (k <= m)%nat -> toByte (x mod 256 ^ N.of_nat m) k = toByte x k.
Proof.
  revert x m. induction k as [|k IH]; intros x m Hm; [reflexivity|].
  destruct m as [|m]; [lia|].
  rewrite !toByte_S, pow256_S.
  assert (Hp : 256 ^ N.of_nat m <> 0) by (apply N.pow_nonzero; discriminate).
  rewrite N.mod_mul_r by (discriminate || exact Hp).
  f_equal.
  - replace ((x mod 256 + 256 * ((x / 256) mod 256 ^ N.of_nat m)) / 256)
      with ((x / 256) mod 256 ^ N.of_nat m).
    + apply IH. lia.
    + generalize ((x / 256) mod 256 ^ N.of_nat m). intros q. lia.
  - f_equal. rewrite N.mul_comm, N.mod_add by discriminate. now rewrite N.mod_mod.
Qed.

Lemma toByte_u32 x : toByte (u32 x) 4 = toByte x 4.
Proof. exact (toByte_mod x 4 4 (le_n _)). Qed.

Lemma toByte_split x a b : toByte x (a + b) = toByte (x / 256 ^ N.of_nat b) a ++ toByte x b.
Proof.
  revert x. induction b as [|b IH]; intros x.
  - rewrite Nat.add_0_r, N.pow_0_r, N.div_1_r. cbn. now rewrite app_nil_r.
  - rewrite Nat.add_succ_r, !toByte_S, IH, pow256_S, app_assoc. f_equal. f_equal. f_equal.
    rewrite N.div_div; [reflexivity|discriminate|apply N.pow_nonzero; discriminate].
Qed.

(** ** os2ip *)
Lemma os2ip_acc b : forall acc, fold_left (fun acc x => acc * 256 + x) b acc = acc * 256 ^ N.of_nat (length b) + os2ip b.
Proof.
  unfold os2ip. induction b as [|x b IH]; intros acc.
  - cbn. lia.
  - cbn [fold_left length]. rewrite (IH (acc * 256 + x)), (IH (0 * 256 + x)), pow256_S. lia.
Qed.
Lemma os2ip_cons x b : os2ip (x :: b) = x * 256 ^ N.of_nat (length b) + os2ip b.
Proof. unfold os2ip at 1. cbn [fold_left]. rewrite os2ip_acc. lia. Qed.
Lemma os2ip_app a b : os2ip (a ++ b) = os2ip a * 256 ^ N.of_nat (length b) + os2ip b.
Proof. unfold os2ip at 1. rewrite fold_left_app. apply os2ip_acc. Qed.
Lemma os2ip_lt b : bytes_ok b -> os2ip b < 256 ^ N.of_nat (length b).
Proof.
  induction b as [|x b IH]; intros Hb; [reflexivity|].
  inversion Hb as [|? ? Hx Hb']; subst. specialize (IH Hb').
  rewrite os2ip_cons. cbn [length]. rewrite pow256_S. nia.
Qed.

Lemma os2ip_toByte x k : os2ip (toByte x k) = x mod 256 ^ N.of_nat k.
Proof.
  revert x. induction k as [|k IH]; intros x.
  - cbn. now rewrite N.mod_1_r.
  - rewrite toByte_S, os2ip_app, IH. change (256 ^ N.of_nat (length [x mod 256])) with 256.
    change (os2ip [x mod 256]) with (0 * 256 + x mod 256).
    rewrite pow256_S, N.mod_mul_r; [|discriminate|apply N.pow_nonzero; discriminate]. lia.
Qed.

Lemma toByte_os2ip b : bytes_ok b -> toByte (os2ip b) (length b) = b.
Proof.
  induction b as [|x b IH] using rev_ind; intros Hb; [reflexivity|].
  apply bytes_ok_app in Hb. destruct Hb as [Hb Hx]. inversion Hx as [|? ? Hx' _]; subst.
  rewrite app_length, Nat.add_comm. cbn [length Nat.add]. rewrite toByte_S, os2ip_app.
  change (os2ip [x]) with (0 * 256 + x). change (256 ^ N.of_nat (length [x])) with 256.
  replace ((os2ip b * 256 + (0 * 256 + x)) / 256) with (os2ip b).
  - rewrite IH by exact Hb. f_equal. f_equal.
    rewrite N.mul_0_l, N.add_0_l, N.add_comm, N.mod_add by discriminate. now apply N.mod_small.
  - rewrite N.mul_0_l, N.add_0_l, N.add_comm, N.div_add by discriminate. rewrite N.div_small by exact Hx'. lia.
Qed.

Lemma toByte_inj x y k : x < 256 ^ N.of_nat k -> y < 256 ^ N.of_nat k -> toByte x k = toByte y k -> x = y.
Proof.
  intros Hx Hy Heq. apply (f_equal os2ip) in Heq. rewrite !os2ip_toByte in Heq.
  now rewrite !N.mod_small in Heq by assumption.
Qed.

Lemma os2ip_inj a b : length a = length b -> bytes_ok a -> bytes_ok b -> os2ip a = os2ip b -> a = b.
Proof. intros Hl Ha Hb He. rewrite <- (toByte_os2ip a Ha), <- (toByte_os2ip b Hb). congruence. Qed.

(** ** bytes_to_ull *)
Lemma bytes_to_ull_loop_spec b : forall r, (length b <= 8)%nat -> bytes_ok b ->
  r * 256 ^ N.of_nat (length b) + os2ip b < 2 ^ 64 ->
  bytes_to_ull_loop b (r * 256 ^ N.of_nat (length b)) = Ok (r * 256 ^ N.of_nat (length b) + os2ip b).
Proof.
  induction b as [|x b IH]; intros r Hl Hb Hlt.
  - cbn. f_equal. lia.
  - inversion Hb as [|? ? Hx Hb']; subst. cbn [length] in Hl.
    cbn [bytes_to_ull_loop]. destruct (Nat.ltb_spec (8 * length b) 64) as [_|Hge]; [|lia].
    rewrite os2ip_cons in Hlt |- *. cbn [length] in Hlt |- *. rewrite pow256_S in Hlt |- *.
    assert (Hpw : 2 ^ N.of_nat (8 * length b) = 256 ^ N.of_nat (length b)).
    { rewrite pow256_pow2. f_equal. lia. }
    assert (Hxs : u64 (N.shiftl x (N.of_nat (8 * length b))) = x * 256 ^ N.of_nat (length b)).
    { unfold u64. rewrite N.shiftl_mul_pow2, Hpw. apply N.mod_small. nia. }
    rewrite Hxs.
    replace (N.lor (r * (256 * 256 ^ N.of_nat (length b))) (x * 256 ^ N.of_nat (length b)))
      with ((r * 256 + x) * 256 ^ N.of_nat (length b)).
    2:{ rewrite <- Hpw.
        replace (r * (256 * 2 ^ N.of_nat (8 * length b)))
          with (N.shiftl (N.shiftl r 8) (N.of_nat (8 * length b))) by
            (rewrite !N.shiftl_mul_pow2; change (2 ^ 8) with 256; lia).
        rewrite <- (N.shiftl_mul_pow2 x). rewrite <- N.shiftl_lor.
        rewrite lor_shift_add by exact Hx. rewrite N.shiftl_mul_pow2. reflexivity. }
    rewrite IH; [f_equal; lia|lia|exact Hb'|lia].
Qed.

Lemma bytes_to_ull_spec b : (length b <= 8)%nat -> bytes_ok b -> bytes_to_ull b = Ok (os2ip b).
Proof.
  intros Hl Hb. unfold bytes_to_ull.
  generalize (bytes_to_ull_loop_spec b 0 Hl Hb). rewrite !N.mul_0_l, !N.add_0_l. intros Hs. apply Hs.
  apply N.lt_le_trans with (256 ^ N.of_nat (length b)); [now apply os2ip_lt|].
  change (2 ^ 64) with (256 ^ 8). apply N.pow_le_mono_r; [discriminate|lia].
Qed.

Lemma bytes_to_ull_long b : (8 < length b)%nat -> bytes_to_ull b = UB.
Proof.
  intros Hl. unfold bytes_to_ull. destruct b as [|x b]; [cbn in Hl; lia|].
  cbn [length] in Hl. cbn [bytes_to_ull_loop].
  destruct (Nat.ltb_spec (8 * length b) 64); [lia|reflexivity].
Qed.
