(** The sponge of fips202.c computes SHAKE of FIPS 202. *)
From Verif Require Import Base Lib ModelFips202 ProofFipsBasic SpecFips202 ProofFips.

Lemma byte_bits_length x : length (byte_bits x) = 8.
Proof. reflexivity. Qed.
Lemma h2b_length m : length (h2b m) = 8 * length m.
Proof. unfold h2b. rewrite (flat_map_const_length _ 8) by reflexivity. lia. Qed.
Lemma h2b_app a b : h2b (a ++ b) = h2b a ++ h2b b.
Proof. apply flat_map_app. Qed.
Lemma h2b_firstn k : forall m, firstn (8 * k) (h2b m) = h2b (firstn k m).
Proof.
  induction k as [|k IH]; intros m; [reflexivity|]. destruct m as [|x m]; [now rewrite firstn_nil|].
  cbn [firstn]. change (h2b (x :: m)) with (byte_bits x ++ h2b m). change (h2b (x :: firstn k m)) with (byte_bits x ++ h2b (firstn k m)).
  replace (8 * S k) with (length (byte_bits x) + 8 * k) by (rewrite byte_bits_length; lia).
  now rewrite firstn_app_2, IH.
Qed.
Lemma h2b_skipn k : forall m, skipn (8 * k) (h2b m) = h2b (skipn k m).
Proof.
  induction k as [|k IH]; intros m; [reflexivity|]. destruct m as [|x m]; [now rewrite skipn_nil|].
  cbn [skipn]. change (h2b (x :: m)) with (byte_bits x ++ h2b m).
  replace (8 * S k) with (8 + 8 * k) by lia. change (skipn (8 + 8 * k) (byte_bits x ++ h2b m)) with (skipn (8 * k) (h2b m)). apply IH.
Qed.
Lemma h2b_inj a : forall b, bytes_ok a -> bytes_ok b -> h2b a = h2b b -> a = b.
Proof.
  induction a as [|x a IH]; intros [|y b] Ha Hb He; try reflexivity; try discriminate.
  change (byte_bits x ++ h2b a = byte_bits y ++ h2b b) in He.
  assert (Hh : byte_bits x = byte_bits y) by (apply (f_equal (firstn 8)) in He; exact He).
  assert (Ht : h2b a = h2b b) by (apply (f_equal (skipn 8)) in He; exact He).
  inversion Ha as [|? ? Hx Ha']; inversion Hb as [|? ? Hy Hb']; subst. f_equal; [|now apply IH].
  apply N.bits_inj. intros z. destruct (N.ltb_spec z 8) as [Hz|Hz].
  - apply (f_equal (fun l => nth (N.to_nat z) l false)) in Hh. unfold byte_bits in Hh.
    rewrite !nth_map_seq in Hh by lia. cbn [Nat.add] in Hh. now rewrite N2Nat.id in Hh.
  - rewrite <- (N.mod_small x (2 ^ 8)), <- (N.mod_small y (2 ^ 8)) by assumption.
    now rewrite !N.mod_pow2_bits_high.
Qed.

Lemma term_bit b i z : (z < 64)%N ->
  N.testbit (u64 (N.shiftl (u8 b) i)) z = ((i <=? z) && (z <? i + 8) && N.testbit b (z - i))%N.
Proof.
  intros Hz. unfold u64. rewrite N.mod_pow2_bits_low by exact Hz.
  destruct (N.leb_spec i z) as [Hi|Hi]; cbn [andb].
  - rewrite N.shiftl_spec_high' by exact Hi. unfold u8. change 256%N with (2 ^ 8)%N.
    destruct (N.ltb_spec z (i + 8)) as [H8|H8]; cbn [andb].
    + apply N.mod_pow2_bits_low. lia.
    + apply N.mod_pow2_bits_high. lia.
  - apply N.shiftl_spec_low. exact Hi.
Qed.
Lemma load64_lt m : (load64 m < 2 ^ 64)%N.
Proof.
  unfold load64. apply lt64_bits. intros z Hz. cbn [seq fold_left]. rewrite !N.lor_spec.
  assert (Hu : forall x, N.testbit (u64 x) z = false) by (intros x; unfold u64; now apply N.mod_pow2_bits_high).
  rewrite !Hu, N.bits_0. reflexivity.
Qed.
Lemma load64_bits m : length m = 8 -> lane_bits (load64 m) = h2b m.
Proof.
  intros Hm. do 8 (destruct m as [|? m]; [discriminate|]). destruct m; [|discriminate].
  unfold load64, lane_bits, h2b. cbn [seq map flat_map app nth fold_left byte_bits].
  repeat (apply f_equal2; [rewrite !N.lor_spec, !term_bit by reflexivity; cbn; rewrite ?orb_false_r; reflexivity|]).
  reflexivity.
Qed.

Lemma seq_shift_n n k : forall a, map (fun i => n + i) (seq a k) = seq (n + a) k.
Proof. induction k as [|k IH]; intros a; cbn; [reflexivity|]. now rewrite IH, Nat.add_succ_r. Qed.
Lemma store64_bits k : forall u, h2b (store64_loop k u) = map (fun i => N.testbit u (N.of_nat i)) (seq 0 (8 * k)).
Proof.
  induction k as [|k IH]; intros u; [reflexivity|]. cbn [store64_loop].
  change (h2b (u8 u :: store64_loop k (N.shiftr u 8))) with (byte_bits (u8 u) ++ h2b (store64_loop k (N.shiftr u 8))).
  rewrite IH. replace (8 * S k) with (8 + 8 * k) by lia. rewrite seq_app, map_app. f_equal.
  - unfold byte_bits. apply map_ext_in. intros i Hi. apply in_seq in Hi. unfold u8. change 256%N with (2 ^ 8)%N.
    apply N.mod_pow2_bits_low. lia.
  - change (seq (0 + 8) (8 * k)) with (seq (8 + 0) (8 * k)). rewrite <- (seq_shift_n 8 (8 * k) 0). rewrite map_map. apply map_ext. intros i.
    rewrite N.shiftr_spec'. f_equal. lia.
Qed.

Lemma xor_str_app a b c d : length a = length c -> xor_str (a ++ b) (c ++ d) = xor_str a c ++ xor_str b d.
Proof.
  revert c. induction a as [|x a IH]; intros [|y c] He; try discriminate; [reflexivity|].
  unfold xor_str in *. cbn. f_equal. apply IH. now injection He.
Qed.
Lemma xor_str_zero a : xor_str a (repeat false (length a)) = a.
Proof. induction a as [|x a IH]; [reflexivity|]. unfold xor_str in *. cbn. rewrite xorb_false_r. now f_equal. Qed.
Lemma lane_xor a b : lane_bits (N.lxor a b) = xor_str (lane_bits a) (lane_bits b).
Proof. unfold lane_bits, xor_str. cbn [seq map combine fst snd]. now rewrite !N.lxor_spec. Qed.

Lemma xor_lanes_length k : forall l m, length (xor_lanes k l m) = length l.
Proof. induction k as [|k IH]; intros [|x l] m; try reflexivity. cbn. now rewrite IH. Qed.
Lemma xor_lanes_lt k : forall l m, Forall (fun x => (x < 2 ^ 64)%N) l -> Forall (fun x => (x < 2 ^ 64)%N) (xor_lanes k l m).
Proof.
  induction k as [|k IH]; intros [|x l] m Hl; try exact Hl. cbn. inversion Hl; subst.
  constructor; [|now apply IH]. apply lxor_lt; [assumption|apply load64_lt].
Qed.
Lemma xor_lanes_bits k : forall l m, k <= length l -> 8 * k <= length m ->
  flat_map lane_bits (xor_lanes k l m) =
  xor_str (flat_map lane_bits l) (h2b (firstn (8 * k) m) ++ repeat false (64 * (length l - k))).
Proof.
  induction k as [|k IH]; intros l m Hk Hm.
  - replace (64 * (length l - 0)) with (length (flat_map lane_bits l)) by (rewrite (flat_map_const_length _ 64) by reflexivity; lia).
    cbn [Nat.mul firstn]. change (h2b []) with (@nil bool). cbn [app]. rewrite xor_str_zero. now destruct l.
  - destruct l as [|x l]; [cbn in Hk; lia|]. cbn [length] in *. cbn [xor_lanes flat_map].
    rewrite IH by (rewrite ?skipn_length; lia).
    replace (8 * S k) with (8 + 8 * k) by lia.
    rewrite <- (firstn_skipn 8 m) at 3. rewrite firstn_app.
    assert (Hf : length (firstn 8 m) = 8) by (rewrite firstn_length; lia).
    rewrite Hf. replace (8 + 8 * k - 8) with (8 * k) by lia. rewrite (firstn_all2 (firstn 8 m)) by lia.
    rewrite h2b_app, <- app_assoc, xor_str_app by (rewrite h2b_length, Hf; reflexivity).
    cbn [Nat.sub]. f_equal. rewrite lane_xor, load64_bits by exact Hf. reflexivity.
Qed.

Lemma lanes_list_id l : length l = 25 -> lanes_to_list (list_to_lanes l) = l.
Proof. intros Hl. do 25 (destruct l as [|? l]; [discriminate|]). destruct l; [reflexivity|discriminate]. Qed.
Lemma wfl_Forall s : wfl s <-> Forall (fun x => (x < 2 ^ 64)%N) (lanes_to_list s).
Proof.
  split.
  - intros Hw. apply Forall_forall. intros x Hx. apply (In_nth _ _ 0%N) in Hx. destruct Hx as [i [_ <-]]. apply Hw.
  - intros Hf i. destruct (Nat.ltb_spec i 25) as [Hi|Hi].
    + rewrite Forall_forall in Hf. apply Hf, nth_In. exact Hi.
    + rewrite nth_overflow by exact Hi. reflexivity.
Qed.

Lemma absorb_block s k m : wfl s -> k <= 25 -> 8 * k <= length m ->
  let s' := list_to_lanes (xor_lanes k (lanes_to_list s) m) in
  wfl s' /\ str s' = xor_str (str s) (h2b (firstn (8 * k) m) ++ repeat false (1600 - 64 * k)).
Proof.
  intros Hs Hk Hm s'. unfold s'. split.
  - apply wfl_Forall. rewrite lanes_list_id by (rewrite xor_lanes_length; reflexivity).
    apply xor_lanes_lt. now apply wfl_Forall.
  - unfold str. rewrite lanes_list_id by (rewrite xor_lanes_length; reflexivity).
    rewrite xor_lanes_bits by (try exact Hk; exact Hm). do 3 f_equal. rewrite lanes_to_list_length. lia.
Qed.

(** ** Padding *)
Lemma pad_small r m : m + 2 < r -> pad10star1 r m = [true] ++ repeat false (r - (m + 2)) ++ [true].
Proof. intros Hr. unfold pad10star1. rewrite (Nat.mod_small (m + 2)) by exact Hr. now rewrite Nat.mod_small by lia. Qed.
Lemma pad_shift r m : 0 < r -> pad10star1 r (r + m) = pad10star1 r m.
Proof.
  intros Hr. unfold pad10star1. replace (r + m + 2) with (m + 2 + 1 * r) by lia. now rewrite Nat.mod_add by lia.
Qed.
Definition ones4 : bits := [true; true; true; true].

Lemma h2b_zeros k : h2b (repeat 0%N k) = repeat false (8 * k).
Proof.
  induction k as [|k IH]; [reflexivity|]. cbn [repeat]. change (h2b (0%N :: repeat 0%N k)) with (repeat false 8 ++ h2b (repeat 0%N k)).
  rewrite IH, <- repeat_app. f_equal. lia.
Qed.
Lemma last_block r m : length m < r ->
  exists t1 x t2, wrc (m ++ repeat 0%N (r - length m)) (length m) 31%N = Ok t1 /\ rdc t1 (r - 1) = Ok x /\
    wrc t1 (r - 1) (N.lor x 128) = Ok t2 /\ length t2 = r /\
    h2b t2 = h2b m ++ ones4 ++ pad10star1 (8 * r) (8 * length m + 4).
Proof.
  intros Hm. exists (m ++ [31%N] ++ repeat 0%N (r - length m - 1)).
  assert (H1 : wrc (m ++ repeat 0%N (r - length m)) (length m) 31%N = Ok (m ++ [31%N] ++ repeat 0%N (r - length m - 1))).
  { rewrite wrc_ok by (rewrite app_length, repeat_length; lia). f_equal.
    replace (r - length m) with (S (r - length m - 1)) at 1 by lia. cbn [repeat]. apply upd_app_mid. reflexivity. }
  rewrite pad_small by lia.
  destruct (Nat.eq_dec (r - length m - 1) 0) as [Hz|Hnz].
  - exists 31%N, (m ++ [159%N]). rewrite Hz in *. cbn [repeat app] in *. replace (r - 1) with (length m) by lia.
    split; [exact H1|]. split.
    { rewrite (rdc_ok _ _ 0%N) by (rewrite app_length; cbn; lia). now rewrite nth_middle. }
    split.
    { rewrite wrc_ok by (rewrite app_length; cbn; lia). f_equal. apply (upd_app_mid m []). reflexivity. }
    split; [rewrite app_length; cbn; lia|]. rewrite h2b_app. f_equal.
    replace (8 * r - (8 * length m + 4 + 2)) with 2 by lia. reflexivity.
  - exists 0%N, (m ++ [31%N] ++ repeat 0%N (r - length m - 2) ++ [128%N]).
    set (a := m ++ [31%N] ++ repeat 0%N (r - length m - 2)).
    assert (Ha : length a = r - 1) by (unfold a; rewrite !app_length, repeat_length; cbn; lia).
    assert (E1 : m ++ [31%N] ++ repeat 0%N (r - length m - 1) = a ++ 0%N :: []).
    { unfold a. rewrite <- !app_assoc. do 2 f_equal. replace (r - length m - 1) with ((r - length m - 2) + 1) by lia. apply repeat_app. }
    assert (E2 : m ++ [31%N] ++ repeat 0%N (r - length m - 2) ++ [128%N] = a ++ 128%N :: []).
    { unfold a. now rewrite <- !app_assoc. }
    rewrite E1 in *. rewrite E2. split; [exact H1|]. rewrite <- Ha. split.
    { rewrite (rdc_ok _ _ 0%N) by (rewrite app_length; cbn; lia). now rewrite nth_middle. }
    split.
    { rewrite wrc_ok by (rewrite app_length; cbn; lia). f_equal. apply upd_app_mid. reflexivity. }
    split; [rewrite app_length; cbn; lia|]. rewrite <- E2, !h2b_app. f_equal.
    replace (8 * r - (8 * length m + 4 + 2)) with (3 + 8 * (r - length m - 2) + 7) by lia.
    rewrite h2b_zeros, !repeat_app, <- !app_assoc. reflexivity.
Qed.

(** ** Absorbing and squeezing *)
Lemma absorb_spec r : 1 <= r <= 200 -> r mod 8 = 0 -> forall fuel s m, length m < fuel -> wfl s ->
  exists s', keccak_absorb_loop fuel s r m 31 = Ok s' /\ wfl s' /\
    let P := h2b m ++ ones4 ++ pad10star1 (8 * r) (8 * length m + 4) in
    str (KeccakF1600_StatePermute s') = absorb keccak_p (8 * r) (length P / (8 * r)) (str s) P.
Proof.
  intros Hr H8. assert (Hk : 8 * (r / 8) = r) by lia. assert (Hk25 : r / 8 <= 25) by lia.
  induction fuel as [|fuel IH]; intros s m Hm Hs; [lia|]. cbn [keccak_absorb_loop].
  destruct (Nat.leb_spec r (length m)) as [Hle|Hgt].
  - destruct (absorb_block s (r / 8) m Hs Hk25 ltac:(lia)) as [W E]. rewrite Hk in E. replace (1600 - 64 * (r / 8)) with (1600 - 8 * r) in E by lia.
    set (s1 := list_to_lanes _) in *. destruct (permute_spec s1 W) as [W2 E2].
    destruct (IH (KeccakF1600_StatePermute s1) (skipn r m)) as [s' [Hs' [W' E']]]; [rewrite skipn_length; lia|exact W2|].
    exists s'. split; [exact Hs'|]. split; [exact W'|]. cbv zeta. cbv zeta in E'. rewrite E', E2, E.
    rewrite skipn_length. set (q := length m - r).
    assert (Hpad : pad10star1 (8 * r) (8 * length m + 4) = pad10star1 (8 * r) (8 * q + 4)).
    { replace (8 * length m + 4) with (8 * r + (8 * q + 4)) by (unfold q; lia). apply pad_shift. lia. }
    rewrite Hpad. rewrite <- h2b_skipn, <- h2b_firstn.
    set (T := ones4 ++ pad10star1 (8 * r) (8 * q + 4)).
    assert (HL : length (h2b m ++ T) = 8 * r + length (skipn (8 * r) (h2b m) ++ T)).
    { rewrite !app_length, skipn_length, h2b_length. lia. }
    rewrite HL. replace (8 * r + length (skipn (8 * r) (h2b m) ++ T)) with (length (skipn (8 * r) (h2b m) ++ T) + 1 * (8 * r)) by lia.
    rewrite Nat.div_add by lia. rewrite Nat.add_1_r. cbn [absorb].
    assert (HT : 8 * r - length (h2b m) = 0) by (rewrite h2b_length; lia).
    rewrite (skipn_app (8 * r) (h2b m) T), (firstn_app (8 * r) (h2b m) T), HT. cbn [skipn firstn]. rewrite app_nil_r.
    reflexivity.
  - destruct (last_block r m Hgt) as [t1 [x [t2 [E1 [E2 [E3 [Hl Hb]]]]]]].
    rewrite E1, bind_ok, E2, bind_ok, E3, bind_ok.
    destruct (absorb_block s (r / 8) t2 Hs Hk25 ltac:(lia)) as [W E]. rewrite Hk in E. replace (1600 - 64 * (r / 8)) with (1600 - 8 * r) in E by lia.
    eexists. split; [reflexivity|]. split; [exact W|]. cbv zeta. rewrite <- Hb.
    rewrite (proj2 (permute_spec _ W)), E. rewrite h2b_length, Hl, Nat.div_same by lia. cbn [absorb].
    rewrite h2b_firstn. reflexivity.
Qed.

Lemma str_store s k : firstn (64 * k) (str s) = h2b (concat (map store64 (firstn k (lanes_to_list s)))).
Proof.
  unfold str. generalize (lanes_to_list s). induction k as [|k IH]; intros l; [reflexivity|].
  destruct l as [|u l]; [now rewrite firstn_nil|]. cbn [firstn map concat flat_map]. rewrite h2b_app, <- IH.
  unfold store64. rewrite store64_bits. change (map (fun i => N.testbit u (N.of_nat i)) (seq 0 (8 * 8))) with (lane_bits u).
  replace (64 * S k) with (length (lane_bits u) + 64 * k) by (rewrite lane_bits_length; lia). apply firstn_app_2.
Qed.

Lemma squeeze_bits r : r mod 8 = 0 -> forall k s, wfl s ->
  wfl (snd (keccak_squeezeblocks k s r)) /\
  h2b (fst (keccak_squeezeblocks k s r)) = squeeze keccak_p (8 * r) k (str (KeccakF1600_StatePermute s)).
Proof.
  intros H8. induction k as [|k IH]; intros s Hs; [split; [exact Hs|reflexivity]|].
  cbn [keccak_squeezeblocks]. set (s1 := KeccakF1600_StatePermute s).
  destruct (permute_spec s Hs) as [W1 E1]. fold s1 in W1, E1.
  destruct (IH s1 W1) as [W Hb]. destruct (keccak_squeezeblocks k s1 r) as [rest s2]. cbn [fst snd] in *.
  split; [exact W|]. rewrite h2b_app, Hb, <- str_store. cbn [squeeze].
  replace (64 * (r / 8)) with (8 * r) by lia. now rewrite (proj2 (permute_spec s1 W1)).
Qed.
Lemma squeezeblocks_snoc r k : forall s,
  fst (keccak_squeezeblocks (S k) s r) =
  fst (keccak_squeezeblocks k s r) ++ fst (keccak_squeezeblocks 1 (snd (keccak_squeezeblocks k s r)) r).
Proof.
  induction k as [|k IH]; intros s; [reflexivity|].
  change (keccak_squeezeblocks (S (S k)) s r) with
    (let s1 := KeccakF1600_StatePermute s in
      let blk := concat (map store64 (firstn (r / 8) (lanes_to_list s1))) in
      let '(rest, s2) := keccak_squeezeblocks (S k) s1 r in (blk ++ rest, s2)).
  change (keccak_squeezeblocks (S k) s r) with
    (let s1 := KeccakF1600_StatePermute s in
      let blk := concat (map store64 (firstn (r / 8) (lanes_to_list s1))) in
      let '(rest, s2) := keccak_squeezeblocks k s1 r in (blk ++ rest, s2)).
  cbv zeta. specialize (IH (KeccakF1600_StatePermute s)).
  destruct (keccak_squeezeblocks (S k) (KeccakF1600_StatePermute s) r) as [a b].
  destruct (keccak_squeezeblocks k (KeccakF1600_StatePermute s) r) as [c d]. cbn [fst snd] in *.
  now rewrite IH, app_assoc.
Qed.

Lemma zero_str : str (list_to_lanes (repeat 0%N 25)) = repeat false 1600.
Proof. vm_compute. reflexivity. Qed.
Lemma zero_wfl : wfl (list_to_lanes (repeat 0%N 25)).
Proof. apply wfl_Forall. change (Forall (fun x => (x < 2 ^ 64)%N) (repeat 0%N 25)). repeat constructor. Qed.

Theorem shake_spec r outlen inp : 1 <= r <= 200 -> r mod 8 = 0 ->
  exists o, shake r outlen inp = Ok o /\ length o = outlen /\ bytes_ok o /\
    h2b o = sponge (8 * r) (h2b inp ++ ones4) (8 * outlen).
Proof.
  intros Hr H8. destruct (shake_total r outlen inp Hr H8) as [o [Ho [Hlen Hok]]].
  exists o. split; [exact Ho|]. split; [exact Hlen|]. split; [exact Hok|].
  unfold shake, keccak_absorb in Ho.
  destruct (absorb_spec r Hr H8 (S (length inp)) (list_to_lanes (repeat 0%N 25)) inp (le_n _) zero_wfl) as [s [Hs [W HE]]].
  rewrite Hs, bind_ok in Ho. cbv zeta in HE. rewrite zero_str in HE.
  assert (Hfirst : o = firstn outlen (fst (keccak_squeezeblocks (S (outlen / r)) s r))).
  { rewrite squeezeblocks_snoc.
    pose proof (proj1 (squeeze_spec r (proj2 Hr) H8 (outlen / r) s)) as Hl.
    destruct (keccak_squeezeblocks (outlen / r) s r) as [blocks s1]. cbn [fst snd] in *.
    assert (Hdm : outlen = outlen / r * r + outlen mod r) by (rewrite (Nat.div_mod outlen r) at 1 by lia; lia).
    set (q := outlen / r) in *. set (md := outlen mod r) in *.
    destruct (Nat.eqb_spec md 0) as [Hz|Hnz].
    - injection Ho as <-. rewrite firstn_app, Hl. replace (outlen - q * r) with 0 by lia.
      cbn [firstn]. rewrite app_nil_r, firstn_all2 by lia. reflexivity.
    - destruct (keccak_squeezeblocks 1 s1 r) as [dd s2]. cbn [fst snd] in *. injection Ho as <-.
      rewrite firstn_app, Hl. replace (outlen - q * r) with md by lia.
      rewrite (firstn_all2 blocks) by lia. reflexivity. }
  rewrite Hfirst, <- h2b_firstn, (proj2 (squeeze_bits r H8 _ s W)), HE.
  unfold sponge. rewrite <- app_assoc. cbv zeta.
  replace (length (h2b inp ++ ones4)) with (8 * length inp + 4) by (rewrite app_length, h2b_length; reflexivity).
  rewrite Nat.div_mul_cancel_l by lia. now rewrite Nat.add_1_r.
Qed.

Theorem shake128_fips outlen inp : exists o, shake128 outlen inp = Ok o /\ length o = outlen /\ bytes_ok o /\
  h2b o = SHAKE128 (h2b inp) (8 * outlen).
Proof.
  apply (shake_spec 168); [lia|reflexivity].
Qed.
Theorem shake256_fips outlen inp : exists o, shake256 outlen inp = Ok o /\ length o = outlen /\ bytes_ok o /\
  h2b o = SHAKE256 (h2b inp) (8 * outlen).
Proof.
  apply (shake_spec 136); [lia|reflexivity].
Qed.
