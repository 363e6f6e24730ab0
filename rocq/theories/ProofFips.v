(** SHAKE of fips202.c computes the FIPS 202 functions. *)
From Verif Require Import Base Lib ModelFips202 ProofFipsBasic SpecFips202.

(** ** Lanes as matrices *)
Definition matrix := nat -> nat -> N.
Definition to_lanes (A : matrix) : lanes :=
  mkLanes (A 0 0) (A 1 0) (A 2 0) (A 3 0) (A 4 0) (A 0 1) (A 1 1) (A 2 1) (A 3 1) (A 4 1)
          (A 0 2) (A 1 2) (A 2 2) (A 3 2) (A 4 2) (A 0 3) (A 1 3) (A 2 3) (A 3 3) (A 4 3)
          (A 0 4) (A 1 4) (A 2 4) (A 3 4) (A 4 4).
Definition of_lanes (s : lanes) : matrix := fun x y => nth (5 * y + x) (lanes_to_list s) 0%N.

Definition thetaL (A : matrix) : matrix :=
  let C := fun x => N.lxor (N.lxor (N.lxor (N.lxor (A x 0) (A x 1)) (A x 2)) (A x 3)) (A x 4) in
  fun x y => N.lxor (A x y) (N.lxor (C ((x + 4) mod 5)) (ROL (C ((x + 1) mod 5)) 1)).
Definition rhoL (A : matrix) : matrix :=
  fun x y => match N.of_nat (rho_offset x y mod 64) with 0%N => A x y | o => ROL (A x y) o end.
Definition piL (A : matrix) : matrix := fun x y => A ((x + 3 * y) mod 5) x.
Definition chiL (A : matrix) : matrix :=
  fun x y => N.lxor (A x y) (N.land (not64 (A ((x + 1) mod 5) y)) (A ((x + 2) mod 5) y)).
Definition iotaL (c : N) (A : matrix) : matrix :=
  fun x y => match x, y with 0, 0 => N.lxor (A x y) c | _, _ => A x y end.
Definition roundL (c : N) (A : matrix) : matrix := iotaL c (chiL (piL (rhoL (thetaL A)))).

(** a round on the record, each lane named once *)
Definition round_rec (c : N) (s : lanes) : lanes := to_lanes (roundL c (of_lanes s)).

Lemma two_rounds c0 c1 s : keccak_two_rounds c0 c1 s = round_rec c1 (round_rec c0 s).
Proof.
  destruct s. cbv -[N.lxor N.land ROL not64]. reflexivity.
Qed.

(** ** Bits of lanes *)
Definition bit (A : matrix) : state := fun x y z => N.testbit (A x y) (N.of_nat z).
Definition wfm (A : matrix) : Prop := forall x y, (A x y < 2 ^ 64)%N.
Definition eqs (A B : state) : Prop := forall x y z, x < 5 -> y < 5 -> z < 64 -> A x y z = B x y z.

Lemma lt64_bits a : (a < 2 ^ 64)%N <-> forall m, (64 <= m)%N -> N.testbit a m = false.
Proof.
  split.
  - intros Ha m Hm. rewrite <- (N.mod_small a (2 ^ 64)) by exact Ha. now apply N.mod_pow2_bits_high.
  - intros Hb. assert (Heq : a = (a mod 2 ^ 64)%N).
    { apply N.bits_inj. intros m. destruct (N.ltb_spec m 64) as [Hm|Hm].
      - now rewrite N.mod_pow2_bits_low.
      - rewrite N.mod_pow2_bits_high by exact Hm. now apply Hb. }
    rewrite Heq. apply N.mod_lt. discriminate.
Qed.
Lemma lxor_lt a b : (a < 2 ^ 64 -> b < 2 ^ 64 -> N.lxor a b < 2 ^ 64)%N.
Proof.
  rewrite !lt64_bits. intros Ha Hb m Hm. rewrite N.lxor_spec, Ha, Hb by exact Hm. reflexivity.
Qed.
Lemma land_lt a b : (b < 2 ^ 64 -> N.land a b < 2 ^ 64)%N.
Proof. rewrite !lt64_bits. intros Hb m Hm. rewrite N.land_spec, Hb by exact Hm. apply andb_false_r. Qed.

Lemma not64_bit a z : (z < 64)%N -> N.testbit (not64 a) z = negb (N.testbit a z).
Proof.
  intros Hz. unfold not64. rewrite N.lxor_spec. change (2 ^ 64 - 1)%N with (N.ones 64).
  rewrite N.ones_spec_low by exact Hz. now rewrite xorb_true_r.
Qed.

Lemma ROL_lt a k : (a < 2 ^ 64 -> ROL a k < 2 ^ 64)%N.
Proof.
  intros Ha. unfold ROL. apply lxor_lt.
  - apply N.mod_lt. discriminate.
  - rewrite N.shiftr_div_pow2. eapply N.le_lt_trans; [|exact Ha].
    apply N.div_le_upper_bound; [apply N.pow_nonzero; discriminate|].
    pose proof (N.pow_nonzero 2 (64 - k) ltac:(discriminate)). nia.
Qed.
Lemma ROL_bit a k z : (a < 2 ^ 64)%N -> (k < 64)%N -> (z < 64)%N ->
  N.testbit (ROL a k) z = N.testbit a ((z + (64 - k)) mod 64).
Proof.
  intros Ha Hk Hz. unfold ROL, u64. rewrite N.lxor_spec, N.mod_pow2_bits_low by exact Hz.
  rewrite N.shiftr_spec'. destruct (N.ltb_spec z k) as [Hlt|Hge].
  - rewrite N.shiftl_spec_low by exact Hlt. rewrite xorb_false_l. f_equal. symmetry. apply N.mod_small. lia.
  - rewrite N.shiftl_spec_high' by exact Hge.
    rewrite (proj1 (lt64_bits a) Ha (z + (64 - k))%N) by lia. rewrite xorb_false_r. f_equal.
    replace (z + (64 - k))%N with ((z - k) + 1 * 64)%N by lia. rewrite N.mod_add by discriminate.
    symmetry. apply N.mod_small. lia.
Qed.

Lemma mod5_lt x : x mod 5 < 5.
Proof. apply Nat.mod_upper_bound. discriminate. Qed.

Lemma theta_bit A : wfm A -> wfm (thetaL A) /\ eqs (bit (thetaL A)) (theta (bit A)).
Proof.
  intros HA.
  assert (HC : forall x, (N.lxor (N.lxor (N.lxor (N.lxor (A x 0%nat) (A x 1%nat)) (A x 2%nat)) (A x 3%nat)) (A x 4%nat) < 2 ^ 64)%N).
  { intros x. repeat apply lxor_lt; apply HA. }
  split.
  - intros x y. unfold thetaL. apply lxor_lt; [apply HA|]. apply lxor_lt; [apply HC|]. apply ROL_lt, HC.
  - intros x y z Hx Hy Hz. unfold bit, thetaL, theta.
    rewrite N.lxor_spec. f_equal. rewrite N.lxor_spec. f_equal.
    + now rewrite !N.lxor_spec.
    + rewrite ROL_bit by (try apply HC; lia). rewrite !N.lxor_spec.
      replace ((N.of_nat z + (64 - 1)) mod 64)%N with (N.of_nat ((z + 63) mod 64)) by lia. reflexivity.
Qed.
Lemma rho_bit A : wfm A -> wfm (rhoL A) /\ eqs (bit (rhoL A)) (rho (bit A)).
Proof.
  intros HA. assert (Ho : forall x y, rho_offset x y mod 64 < 64) by (intros; apply Nat.mod_upper_bound; discriminate).
  split.
  - intros x y. unfold rhoL. destruct (N.of_nat (rho_offset x y mod 64)); [apply HA|apply ROL_lt, HA].
  - intros x y z Hx Hy Hz. unfold bit, rhoL, rho. specialize (Ho x y).
    set (o := rho_offset x y mod 64) in *. destruct (N.of_nat o) eqn:Eo.
    + replace ((z + 64 - o) mod 64) with z; [reflexivity|]. replace (z + 64 - o) with (z + 1 * 64) by lia.
      rewrite Nat.mod_add by discriminate. symmetry. apply Nat.mod_small. exact Hz.
    + rewrite <- Eo. rewrite ROL_bit by (try apply HA; lia). f_equal.
      rewrite Nat2N.inj_mod by discriminate. f_equal. lia.
Qed.
Lemma pi_bit A : wfm A -> wfm (piL A) /\ eqs (bit (piL A)) (pi (bit A)).
Proof. intros HA. split; [intros x y; apply HA|]. intros x y z _ _ _. reflexivity. Qed.
Lemma chi_bit A : wfm A -> wfm (chiL A) /\ eqs (bit (chiL A)) (chi (bit A)).
Proof.
  intros HA. split.
  - intros x y. unfold chiL. apply lxor_lt; [apply HA|]. apply land_lt, HA.
  - intros x y z Hx Hy Hz. unfold bit, chiL, chi. rewrite N.lxor_spec, N.land_spec, not64_bit by lia.
    now rewrite xorb_true_r.
Qed.
Lemma iota_bit A c ir : wfm A -> (c < 2 ^ 64)%N -> (forall z, z < 64 -> N.testbit c (N.of_nat z) = RC ir z) ->
  wfm (iotaL c A) /\ eqs (bit (iotaL c A)) (iota ir (bit A)).
Proof.
  intros HA Hc HRC. split.
  - intros [|x] [|y]; unfold iotaL; try apply HA. apply lxor_lt; [apply HA|exact Hc].
  - intros x y z Hx Hy Hz. unfold bit, iotaL, iota. destruct x as [|x]; [destruct y as [|y]|]; cbn [Nat.eqb andb].
    + rewrite N.lxor_spec. now rewrite HRC.
    + reflexivity.
    + reflexivity.
Qed.

(** the step mappings respect equality of states *)
Lemma theta_ext A B : eqs A B -> eqs (theta A) (theta B).
Proof.
  intros HE x y z Hx Hy Hz. unfold theta. pose proof (mod5_lt (x + 4)). pose proof (mod5_lt (x + 1)).
  assert ((z + 63) mod 64 < 64) by (apply Nat.mod_upper_bound; discriminate).
  rewrite !(HE x y z), !(HE ((x + 4) mod 5) _ z), !(HE ((x + 1) mod 5) _ ((z + 63) mod 64)) by (assumption || lia).
  reflexivity.
Qed.
Lemma rho_ext A B : eqs A B -> eqs (rho A) (rho B).
Proof. intros HE x y z Hx Hy Hz. unfold rho. apply HE; try assumption. apply Nat.mod_upper_bound. discriminate. Qed.
Lemma pi_ext A B : eqs A B -> eqs (pi A) (pi B).
Proof. intros HE x y z Hx Hy Hz. unfold pi. apply HE; try assumption. apply mod5_lt. Qed.
Lemma chi_ext A B : eqs A B -> eqs (chi A) (chi B).
Proof.
  intros HE x y z Hx Hy Hz. unfold chi. rewrite (HE x y z), (HE ((x + 1) mod 5) y z), (HE ((x + 2) mod 5) y z) by (try apply mod5_lt; assumption).
  reflexivity.
Qed.
Lemma iota_ext A B ir : eqs A B -> eqs (iota ir A) (iota ir B).
Proof. intros HE x y z Hx Hy Hz. unfold iota. now rewrite (HE x y z). Qed.
Lemma eqs_trans A B C : eqs A B -> eqs B C -> eqs A C.
Proof. intros H1 H2 x y z Hx Hy Hz. rewrite H1, H2 by assumption. reflexivity. Qed.
Lemma eqs_refl A : eqs A A.
Proof. intros x y z _ _ _. reflexivity. Qed.
Lemma Rnd_ext A B ir : eqs A B -> eqs (Rnd A ir) (Rnd B ir).
Proof. intros HE. now apply iota_ext, chi_ext, pi_ext, rho_ext, theta_ext. Qed.
Lemma Rnds_ext l : forall A B, eqs A B -> eqs (fold_left Rnd l A) (fold_left Rnd l B).
Proof. induction l as [|ir l IH]; intros A B HE; [exact HE|]. cbn [fold_left]. now apply IH, Rnd_ext. Qed.

Lemma round_bit A c ir : wfm A -> (c < 2 ^ 64)%N -> (forall z, z < 64 -> N.testbit c (N.of_nat z) = RC ir z) ->
  wfm (roundL c A) /\ eqs (bit (roundL c A)) (Rnd (bit A) ir).
Proof.
  intros HA Hc HRC. unfold roundL, Rnd.
  destruct (theta_bit A HA) as [W1 E1]. destruct (rho_bit _ W1) as [W2 E2]. destruct (pi_bit _ W2) as [W3 E3].
  destruct (chi_bit _ W3) as [W4 E4]. destruct (iota_bit _ c ir W4 Hc HRC) as [W5 E5].
  split; [exact W5|]. eapply eqs_trans; [exact E5|]. apply iota_ext.
  eapply eqs_trans; [exact E4|]. apply chi_ext. eapply eqs_trans; [exact E3|]. apply pi_ext.
  eapply eqs_trans; [exact E2|]. apply rho_ext. exact E1.
Qed.

(** the round constants of the C code are those of the LFSR *)
Lemma rc_table : forallb (fun ir => (nth ir KeccakF_RoundConstants 0 <? 2 ^ 64)%N &&
   forallb (fun z => Bool.eqb (N.testbit (nth ir KeccakF_RoundConstants 0%N) (N.of_nat z)) (RC ir z)) (seq 0 64)) (seq 0 24) = true.
Proof. vm_compute. reflexivity. Qed.
Lemma rc_ok ir : ir < 24 -> (nth ir KeccakF_RoundConstants 0 < 2 ^ 64)%N /\
  forall z, z < 64 -> N.testbit (nth ir KeccakF_RoundConstants 0%N) (N.of_nat z) = RC ir z.
Proof.
  intros Hir. pose proof rc_table as Ht. rewrite forallb_forall in Ht.
  specialize (Ht ir ltac:(apply in_seq; lia)). apply andb_prop in Ht. destruct Ht as [H1 H2]. split.
  - now apply N.ltb_lt.
  - intros z Hz. rewrite forallb_forall in H2. specialize (H2 z ltac:(apply in_seq; lia)). now apply eqb_prop.
Qed.

(** ** The permutation *)
Definition wfl (s : lanes) : Prop := forall i, (nth i (lanes_to_list s) 0 < 2 ^ 64)%N.
Lemma wfl_wfm s : wfl s -> wfm (of_lanes s).
Proof. intros Hs x y. apply Hs. Qed.
Lemma wfm_wfl A : wfm A -> wfl (to_lanes A).
Proof.
  intros HA i. do 25 (destruct i as [|i]; [apply HA|]). cbn. destruct i; reflexivity.
Qed.
Lemma of_to A : forall x y, x < 5 -> y < 5 -> of_lanes (to_lanes A) x y = A x y.
Proof.
  intros x y Hx Hy. do 5 (destruct x as [|x]; [do 5 (destruct y as [|y]; [reflexivity|]); lia|]). lia.
Qed.
Lemma eqs_bit_to A : eqs (bit (of_lanes (to_lanes A))) (bit A).
Proof. intros x y z Hx Hy _. unfold bit. now rewrite of_to. Qed.

Lemma round_rec_bit c ir s : wfl s -> (c < 2 ^ 64)%N -> (forall z, z < 64 -> N.testbit c (N.of_nat z) = RC ir z) ->
  wfl (round_rec c s) /\ eqs (bit (of_lanes (round_rec c s))) (Rnd (bit (of_lanes s)) ir).
Proof.
  intros Hs Hc HRC. destruct (round_bit (of_lanes s) c ir (wfl_wfm s Hs) Hc HRC) as [W E].
  unfold round_rec. split; [now apply wfm_wfl|]. eapply eqs_trans; [apply eqs_bit_to|exact E].
Qed.

Lemma keccak_loop_bit : forall k ir s, ir + 2 * k = 24 -> wfl s ->
  wfl (keccak_loop (skipn ir KeccakF_RoundConstants) s) /\
  eqs (bit (of_lanes (keccak_loop (skipn ir KeccakF_RoundConstants) s))) (fold_left Rnd (seq ir (2 * k)) (bit (of_lanes s))).
Proof.
  induction k as [|k IH]; intros ir s Hk Hs.
  - replace ir with 24 by lia. split; [exact Hs|apply eqs_refl].
  - rewrite (skipn_nth 0%N KeccakF_RoundConstants ir) by (cbn; lia).
    rewrite (skipn_nth 0%N KeccakF_RoundConstants (S ir)) by (cbn; lia).
    cbn [keccak_loop]. rewrite two_rounds.
    destruct (rc_ok ir) as [C0 R0]; [lia|]. destruct (rc_ok (S ir)) as [C1 R1]; [lia|].
    destruct (round_rec_bit _ ir s Hs C0 R0) as [W0 E0].
    destruct (round_rec_bit _ (S ir) _ W0 C1 R1) as [W1 E1].
    destruct (IH (S (S ir)) _ ltac:(lia) W1) as [W E]. split; [exact W|].
    replace (2 * S k) with (S (S (2 * k))) by lia. change (seq ir (S (S (2 * k)))) with (ir :: S ir :: seq (S (S ir)) (2 * k)).
    cbn [fold_left]. eapply eqs_trans; [exact E|]. apply Rnds_ext.
    eapply eqs_trans; [exact E1|]. apply Rnd_ext. exact E0.
Qed.

(** ** Strings *)
Definition lane_bits (u : N) : bits := map (fun i => N.testbit u (N.of_nat i)) (seq 0 64).
Definition str (s : lanes) : bits := flat_map lane_bits (lanes_to_list s).

Lemma flat_map_concat {A B} (f : A -> list B) l : flat_map f l = concat (map f l).
Proof. induction l as [|a l IH]; cbn; [reflexivity|]. now rewrite IH. Qed.
Lemma flat_map_const_length {A B} (f : A -> list B) k l : (forall a, length (f a) = k) -> length (flat_map f l) = length l * k.
Proof. intros Hf. induction l as [|a l IH]; cbn; [reflexivity|]. now rewrite app_length, Hf, IH. Qed.
Lemma flat_map_nth {A B} (f : A -> list B) k da db l : 0 < k -> (forall a, length (f a) = k) ->
  forall i, i < length l * k -> nth i (flat_map f l) db = nth (i mod k) (f (nth (i / k) l da)) db.
Proof.
  intros Hk Hf. induction l as [|a l IH]; intros i Hi; cbn [length Nat.mul] in Hi; [lia|]. cbn [flat_map].
  destruct (Nat.ltb_spec i k) as [Hlt|Hge].
  - rewrite app_nth1 by (rewrite Hf; exact Hlt). rewrite Nat.mod_small, Nat.div_small by exact Hlt. reflexivity.
  - rewrite app_nth2 by (rewrite Hf; exact Hge). rewrite Hf, IH by lia.
    replace i with ((i - k) + 1 * k) at 3 4 by lia. rewrite Nat.mod_add, Nat.div_add by lia.
    rewrite Nat.add_1_r. reflexivity.
Qed.
Lemma lane_bits_length u : length (lane_bits u) = 64.
Proof. reflexivity. Qed.
Lemma lane_bits_nth u z : z < 64 -> nth z (lane_bits u) false = N.testbit u (N.of_nat z).
Proof. intros Hz. unfold lane_bits. now rewrite nth_map_seq. Qed.
Lemma str_length s : length (str s) = 1600.
Proof. unfold str. now rewrite (flat_map_const_length _ 64). Qed.
Lemma str_nth s i : i < 1600 -> nth i (str s) false = N.testbit (nth (i / 64) (lanes_to_list s) 0%N) (N.of_nat (i mod 64)).
Proof.
  intros Hi. unfold str. rewrite (flat_map_nth _ 64 0%N); [|lia|reflexivity|exact Hi].
  apply lane_bits_nth. apply Nat.mod_upper_bound. discriminate.
Qed.
Lemma str_state s : eqs (state_of_string (str s)) (bit (of_lanes s)).
Proof.
  intros x y z Hx Hy Hz. unfold state_of_string, bit, of_lanes. rewrite str_nth by lia.
  replace ((64 * (5 * y + x) + z) / 64) with (5 * y + x) by lia.
  replace ((64 * (5 * y + x) + z) mod 64) with z by lia. reflexivity.
Qed.

Theorem permute_spec s : wfl s -> wfl (KeccakF1600_StatePermute s) /\ str (KeccakF1600_StatePermute s) = keccak_p (str s).
Proof.
  intros Hs. destruct (keccak_loop_bit 12 0 s eq_refl Hs) as [W E].
  change (skipn 0 KeccakF_RoundConstants) with KeccakF_RoundConstants in *.
  fold (KeccakF1600_StatePermute s) in *. split; [exact W|].
  apply (list_ext false).
  - rewrite str_length. unfold keccak_p, string_of_state. now rewrite map_length, seq_length.
  - rewrite str_length. intros i Hi. unfold keccak_p, string_of_state. rewrite nth_map_seq by exact Hi. cbn [Nat.add].
    rewrite str_nth by exact Hi.
    assert (Hx : (i / 64) mod 5 < 5) by apply mod5_lt. assert (Hy : i / 320 < 5) by lia. assert (Hz : i mod 64 < 64) by lia.
    pose proof (eqs_trans _ _ _ E (fun x y z a b c => eq_sym (Rnds_ext (seq 0 24) _ _ (str_state s) x y z a b c))) as E2.
    rewrite <- (E2 _ _ _ Hx Hy Hz). unfold bit, of_lanes. do 2 f_equal.
    change (i / 64 = 5 * (i / 320) + (i / 64) mod 5). lia.
Qed.
