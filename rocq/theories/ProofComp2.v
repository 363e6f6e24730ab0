(** Components: WOTS+ round trip, encodings, domination, trees. *)
From Coq Require Import String.
From Verif Require Import Base Lib ModelUtils ModelParams ModelFips202 ModelHash ModelWots ModelCommons ModelCore ModelCoreFast ModelXmss
  SpecRfc SpecFips202 SpecParams SpecApi SpecComp ProofUtils ProofFipsBasic ProofFips ProofShake ProofHash ProofWots ProofCommons ProofTree ProofCore ProofParams ProofComp.

Lemma nth_firstn_lt {A} (l : list A) k i d : i < k -> nth i (firstn k l) d = nth i l d.
Proof. revert k i. induction l as [|x l IH]; intros [|k] [|i] H; try lia; cbn; try reflexivity. apply IH. lia. Qed.
Lemma nth_skipn {A} (l : list A) k i d : nth i (skipn k l) d = nth (k + i) l d.
Proof. revert k i. induction l as [|x l IH]; intros [|k] i; cbn; try reflexivity; [now destruct i|]. apply IH. Qed.
(** ** Integers and bytes *)
Lemma decode_encode k x : k <= 8 -> bytes_to_ull (ull_to_bytes k x) = Ok (x mod 256 ^ N.of_nat k)%N.
Proof.
  intros Hk. rewrite ull_to_bytes_spec, bytes_to_ull_spec by (rewrite ?toByte_length; auto using toByte_ok). now rewrite os2ip_toByte.
Qed.
Lemma encode_decode b : length b <= 8 -> bytes_ok b -> exists v, bytes_to_ull b = Ok v /\ (v < 256 ^ N.of_nat (length b))%N /\ ull_to_bytes (length b) v = b.
Proof.
  intros Hl Hb. exists (os2ip b). rewrite bytes_to_ull_spec, ull_to_bytes_spec, toByte_os2ip by assumption. split; [reflexivity|]. split; [now apply os2ip_lt|reflexivity].
Qed.
Lemma first_diff : forall a b : bytes, length a = length b -> a <> b -> exists pre x y s t, a = pre ++ x :: s /\ b = pre ++ y :: t /\ x <> y.
Proof.
  induction a as [|x a IH]; intros [|y b] Hl Hn; try discriminate Hl; [congruence|].
  destruct (N.eq_dec x y) as [->|Hx].
  - destruct (IH b) as [pre [u [v [s [t [-> [-> Hd]]]]]]]; [cbn in Hl; lia|congruence|]. now exists (y :: pre), u, v, s, t.
  - now exists [], x, y, a, b.
Qed.
Lemma lex_os2ip a b : length a = length b -> bytes_ok a -> bytes_ok b -> lex_lt a b -> (os2ip a < os2ip b)%N.
Proof.
  intros Hl Ha Hb [pre [x [y [s [t [-> [-> Hx]]]]]]]. rewrite !os2ip_app, !os2ip_cons.
  assert (Hlen : length s = length t) by (rewrite !app_length in Hl; cbn in Hl; lia).
  apply bytes_ok_app in Ha. destruct Ha as [_ Ha]. apply Forall_cons_iff in Ha. destruct Ha as [_ Ha]. apply os2ip_lt in Ha.
  cbn [length]. rewrite !Hlen in *. apply N.add_lt_mono_l. nia.
Qed.
Lemma encode_order k x y : (x < 256 ^ N.of_nat k -> y < 256 ^ N.of_nat k ->
  (x < y <-> lex_lt (ull_to_bytes k x) (ull_to_bytes k y)))%N.
Proof.
  intros Hx Hy. rewrite !ull_to_bytes_spec.
  assert (Hl : length (toByte x k) = length (toByte y k)) by now rewrite !toByte_length.
  assert (Hvx : os2ip (toByte x k) = x) by (rewrite os2ip_toByte; now apply N.mod_small).
  assert (Hvy : os2ip (toByte y k) = y) by (rewrite os2ip_toByte; now apply N.mod_small).
  split.
  - intros Hlt. destruct (first_diff (toByte x k) (toByte y k) Hl) as [pre [u [v [s [t [H1 [H2 H3]]]]]]].
    + intros He. apply toByte_inj in He; [|assumption..]. lia.
    + destruct (N.lt_trichotomy u v) as [H|[H|H]]; [exists pre, u, v, s, t; auto|congruence|exfalso].
      assert (lex_lt (toByte y k) (toByte x k)) as Hc by (exists pre, v, u, t, s; auto).
      apply lex_os2ip in Hc; [|congruence|apply toByte_ok..]. lia.
  - intros Hlt. apply lex_os2ip in Hlt; [|exact Hl|apply toByte_ok..]. lia.
Qed.
Lemma encode_inj k x y : (x < 256 ^ N.of_nat k -> y < 256 ^ N.of_nat k -> ull_to_bytes k x = ull_to_bytes k y -> x = y)%N.
Proof. rewrite !ull_to_bytes_spec. apply toByte_inj. Qed.

(** ** Addresses *)
Lemma words_of a : addr_ok a -> words a (a0 a) (tree_word a) (a3 a).
Proof.
  intros [H0 [H1 [H2 _]]]. unfold words, tree_word. rewrite u32_id by assumption. split; [reflexivity|].
  rewrite N.shiftr_div_pow2. split; [|split; [|reflexivity]].
  - rewrite N.div_add_l by lia. rewrite N.div_small by assumption. rewrite N.add_0_r. now rewrite u32_id.
  - unfold u32. rewrite N.add_comm, N.mod_add by lia. now rewrite N.mod_small.
Qed.
Lemma ots_of a : addr_ok a -> a3 a = 0%N -> ots_ctx a (a0 a) (tree_word a) (a4 a).
Proof. intros Ha Ht. split; [rewrite <- Ht; now apply words_of|]. unfold w4. rewrite u32_id; [reflexivity|apply Ha]. Qed.
Lemma same_key_tree a b : same_key a b -> tree_word a = tree_word b.
Proof. intros [_ [H1 [H2 _]]]. unfold tree_word. now rewrite H1, H2. Qed.

(** ** Digit values *)
Lemma digits_value_snoc w l x : digits_value w (l ++ [x]) = (digits_value w l * N.of_nat w + N.of_nat x)%N.
Proof. unfold digits_value. now rewrite fold_left_app. Qed.
Lemma base_w_value lg X : bytes_ok X -> forall m, m * lg <= 8 * length X ->
  digits_value (2 ^ lg) (base_w_spec lg X m) = (os2ip X / 2 ^ N.of_nat (8 * length X - m * lg))%N.
Proof.
  intros HX. assert (Hlt := os2ip_lt X HX). induction m as [|m IH]; intros Hm.
  - rewrite N.div_small; [reflexivity|]. rewrite pow256_pow2 in Hlt. 
    eapply N.lt_le_trans; [exact Hlt|]. apply N.pow_le_mono_r; lia.
  - unfold base_w_spec in *. rewrite map_seq_S, digits_value_snoc, IH by lia. unfold base_w_digit. rewrite N2Nat.id, Nat.add_0_l.
    set (B := 8 * length X) in *.
    replace (B - m * lg) with (lg + (B - (m + 1) * lg)) by lia. replace (S m) with (m + 1) by lia.
    rewrite Nat2N.inj_add, N.pow_add_r, (N.mul_comm (2 ^ N.of_nat lg)), <- N.div_div by (apply N.pow_nonzero; lia).
    rewrite Nat2N.inj_pow. change (N.of_nat 2) with 2%N.
    set (v := (os2ip X / 2 ^ N.of_nat (B - (m + 1) * lg))%N). set (w := (2 ^ N.of_nat lg)%N).
    rewrite (N.mul_comm _ w). symmetry. apply N.div_mod. unfold w. apply N.pow_nonzero. lia.
Qed.

Lemma digits_value_le w : forall l1 l2 a1 a2, length l1 = length l2 -> (forall i, nth i l1 0 <= nth i l2 0) -> (a1 <= a2)%N ->
  (fold_left (fun acc x => acc * N.of_nat w + N.of_nat x) l1 a1 <= fold_left (fun acc x => acc * N.of_nat w + N.of_nat x) l2 a2)%N.
Proof.
  induction l1 as [|x l1 IH]; intros [|y l2] a1 a2 Hl Hi Ha; try discriminate Hl; [exact Ha|]. cbn. apply IH.
  - now injection Hl.
  - intros i. exact (Hi (S i)).
  - specialize (Hi 0). cbn in Hi. apply N.add_le_mono; [now apply N.mul_le_mono_r|lia].
Qed.
Lemma csum_le P : forall l1 l2, length l1 = length l2 -> (forall i, nth i l1 0 <= nth i l2 0) -> (forall i, nth i l2 0 <= sp_w P - 1) ->
  csum_spec P l2 <= csum_spec P l1 /\ (csum_spec P l1 = csum_spec P l2 -> l1 = l2).
Proof.
  induction l1 as [|x l1 IH]; intros [|y l2] Hl Hi Hb; try discriminate Hl; [split; auto|].
  destruct (IH l2) as [H1 H2]; [now injection Hl|intros i; exact (Hi (S i))|intros i; exact (Hb (S i))|].
  pose proof (Hi 0) as Hi0. pose proof (Hb 0) as Hb0. cbn in Hi0, Hb0. cbn [csum_spec fold_right] in *. unfold csum_spec in *. cbn [fold_right] in *.
  split; [lia|]. intros He. assert (x = y) by lia. subst. rewrite H2; [reflexivity|lia].
Qed.
Lemma csum_bound P l : csum_spec P l <= length l * (sp_w P - 1).
Proof. unfold csum_spec. induction l as [|x l IH]; cbn [fold_right length Nat.mul]; lia. Qed.

Lemma Hall_nth : forall l1 l2 : list nat, (length l1 =? length l2) && forallb (fun q => fst q <=? snd q) (combine l1 l2) = true -> forall i, nth i l1 0 <= nth i l2 0.
Proof.
  induction l1 as [|a l1 IH]; intros [|b l2] Hf i; cbn in Hf; try discriminate Hf; [lia|]. apply andb_prop in Hf. destruct Hf as [Hl Hf]. apply andb_prop in Hf. destruct Hf as [Hf1 Hf2].
  destruct i; cbn; [now apply Nat.leb_le|]. apply IH. rewrite Hf2, Hl. reflexivity.
Qed.
Definition blank_sp (n lg : nat) : sparams := mkSp n lg 0 0 0 (fun x => x).
Lemma digits_any P n lg M : sp_n P = n -> sp_lgw P = lg -> wots_digits P M = wots_digits (blank_sp n lg) M.
Proof. destruct P as [n' lg' pad h d H]. cbn [sp_n sp_lgw]. intros -> ->. reflexivity. Qed.
Lemma dom256_ok n : In n [24; 32; 64] ->
  (length (wots_digits (blank_sp n 8) (repeat 0%N n)) =? length (wots_digits (blank_sp n 8) (255%N :: repeat 0%N (n - 1)))) &&
  forallb (fun q => fst q <=? snd q) (combine (wots_digits (blank_sp n 8) (repeat 0%N n)) (wots_digits (blank_sp n 8) (255%N :: repeat 0%N (n - 1)))) = true.
Proof. intros [<-|[<-|[<-|[]]]]; vm_compute; reflexivity. Qed.

Section Conf.
Context {E : Env}.
Variables (c : custom) (p : xmss_params).
Hypothesis HE : env_ok E.
Hypothesis Hc : custom_ok c.
Hypothesis Hp : configured c p.
Notation P := (custom_sp c).
Notation n := (cu_n c).
Notation w := (2 ^ cu_lgw c).
Let Hok : params_ok p. Proof. exact (proj1 (conf_ok c p HE Hc Hp)). Qed.
Let HH : hash_total p (hash_of (cu_fn c) n). Proof. exact (proj1 (proj2 (conf_ok c p HE Hc Hp))). Qed.
Let Hsp : sp_of p (hash_of (cu_fn c) n) = P. Proof. exact (proj1 (proj2 (proj2 (conf_ok c p HE Hc Hp)))). Qed.
Let Hn : p_n p = n. Proof. exact (proj2 (proj2 (proj2 (conf_ok c p HE Hc Hp)))). Qed.
Lemma conf_hash : hash_total p (hash_of (cu_fn c) n). Proof. exact HH. Qed.
Lemma conf_params : params_ok p. Proof. exact Hok. Qed.
Lemma conf_sp : sp_of p (hash_of (cu_fn c) n) = P. Proof. exact Hsp. Qed.
Lemma conf_n : p_n p = n. Proof. exact Hn. Qed.

Lemma wots_roundtrip sks seed M x y z : length sks = n -> length seed = n -> length M = n -> bytes_ok M ->
  addr_ok x -> a3 x = 0%N -> same_key x y -> same_key x z -> addr_ok y -> addr_ok z ->
  exists sig pk x' y' z', wots_sign p M sks seed x = Ok (sig, x') /\ wots_pkgen p sks seed y = Ok (pk, y') /\
    wots_pk_from_sig p sig M seed z = Ok (pk, z') /\
    sig = concat (wots_sig P seed (a0 x) (tree_word x) (a4 x) sks M) /\ pk = concat (wots_pk P seed (a0 x) (tree_word x) (a4 x) sks).
Proof.
  rewrite <- Hn. intros H1 H2 H3 H4 Hx Ht Hxy Hxz Hy Hz.
  assert (Cx : ots_ctx x (a0 x) (tree_word x) (a4 x)) by now apply ots_of.
  assert (Cy : ots_ctx y (a0 x) (tree_word x) (a4 x)).
  { destruct Hxy as [E0 [E1 [E2 [E3 E4]]]]. rewrite E0, E4, (same_key_tree x y) by (repeat split; assumption). apply ots_of; [assumption|congruence]. }
  assert (Cz : ots_ctx z (a0 x) (tree_word x) (a4 x)).
  { destruct Hxz as [E0 [E1 [E2 [E3 E4]]]]. rewrite E0, E4, (same_key_tree x z) by (repeat split; assumption). apply ots_of; [assumption|congruence]. }
  destruct (wots_sign_spec p _ Hok HH seed (a0 x) (tree_word x) (a4 x) H2 sks M x H1 H4 H3 Cx) as [x' [S1 _]].
  destruct (wots_pkgen_spec p _ Hok HH seed (a0 x) (tree_word x) (a4 x) H2 sks y H1 Cy) as [y' [S2 _]].
  set (sg := wots_sig (sp_of p (hash_of (cu_fn c) n)) seed (a0 x) (tree_word x) (a4 x) sks M) in *.
  destruct (wots_pk_from_sig_spec p _ Hok HH seed (a0 x) (tree_word x) (a4 x) H2 sg M z) as [z' [S3 _]]; try assumption.
  - eapply wots_sig_chunked; eassumption.
  - eapply wots_sig_length; eassumption.
  - subst sg. rewrite (wots_pk_of_sig p _ Hok) in S3 by assumption. rewrite Hsp in S1, S2, S3.
    exists (concat (wots_sig P seed (a0 x) (tree_word x) (a4 x) sks M)), (concat (wots_pk P seed (a0 x) (tree_word x) (a4 x) sks)), x', y', z'.
    split; [exact S1|]. split; [exact S2|]. split; [exact S3|]. split; reflexivity.
Qed.

Lemma len1_conf : sp_len1 P * cu_lgw c = 8 * n.
Proof. exact (c_len1 c Hc). Qed.
Lemma lengths_ok M : length M = n -> bytes_ok M -> exists l, chain_lengths p M = Ok l /\ l = wots_digits P M /\
  length l = sp_len P /\ (forall i, nth i l 0 < w) /\
  firstn (sp_len1 P) l = base_w_spec (cu_lgw c) M (sp_len1 P) /\
  digits_value w (firstn (sp_len1 P) l) = os2ip M /\
  (cu_lgw c <> 8 -> digits_value w (skipn (sp_len1 P) l) = N.of_nat (csum_spec P (firstn (sp_len1 P) l))).
Proof.
  intros HM Hb. exists (wots_digits P M). rewrite <- Hsp at 1. split; [apply chain_lengths_spec; [exact Hok|exact Hb|congruence]|]. split; [reflexivity|].
  split; [rewrite <- Hsp; rewrite wots_digits_length by exact Hok; symmetry; now apply sp_len_of|].
  split. { intros i. rewrite <- Hsp. pose proof (wots_digits_lt p (hash_of (cu_fn c) n) Hok M i) as Hi. rewrite (po_w p Hok) in Hi.
    assert (Hlg : wots_log_w p = cu_lgw c) by (change (cu_lgw c) with (sp_lgw P); now rewrite <- Hsp). rewrite Hlg in Hi.
    assert (2 ^ cu_lgw c <> 0) by (apply Nat.pow_nonzero; lia). lia. }
  unfold wots_digits. cbn [custom_sp sp_lgw]. fold P. change (sp_lgw P) with (cu_lgw c).
  set (msg := base_w_spec (cu_lgw c) M (sp_len1 P)).
  assert (Hlm : length msg = sp_len1 P) by apply base_w_spec_length.
  rewrite firstn_app_len, skipn_app_len by (symmetry; exact Hlm).
  split; [reflexivity|]. split.
  - unfold msg. rewrite base_w_value; [|exact Hb|rewrite len1_conf, HM; lia]. rewrite len1_conf, HM, Nat.sub_diag. apply N.div_1_r.
  - intros Hlg8. set (X := toByte _ _).
    pose proof (csum_bound P msg) as Hcs. rewrite Hlm in Hcs. set (cs := csum_spec P msg) in *. clearbody cs.
    change (sp_w P) with w in Hcs. pose proof (len1_conf) as Hl1. pose proof (c_len2 c Hc) as Hl2.
    change (sp_len2 (custom_sp (E := {| sha256 := fun _ => []; sha512 := fun _ => []; junk := fun _ => 0%N |}) c)) with (sp_len2 P) in Hl2.
    clearbody msg. assert (Hn64 : n <= 64) by (destruct (c_n c Hc) as [->| [->| ->]]; lia).
    assert (HX : os2ip X = (N.of_nat cs * 2 ^ N.of_nat (8 - (sp_len2 P * cu_lgw c) mod 8))%N /\ length X = 2 /\ bytes_ok X /\
      sp_len2 P * cu_lgw c + (8 - (sp_len2 P * cu_lgw c) mod 8) = 16).
    { unfold X. rewrite os2ip_toByte, toByte_length.
      destruct (c_lgw c Hc) as [Hg|[Hg|Hg]]; rewrite Hg in Hl1, Hl2, Hlg8, Hcs |- *; try (exfalso; congruence); cbn in Hl2; rewrite Hl2;
        cbn [Nat.mul Nat.add];
        (split; [|split; [reflexivity|split; [apply toByte_ok|reflexivity]]]); apply N.mod_small.
      - change (N.of_nat (8 - 10 mod 8)) with 6%N. change (N.of_nat (17 / 8)) with 2%N. change (2 ^ 6)%N with 64%N. change (256 ^ 2)%N with 65536%N. change (2 ^ 2 - 1) with 3 in Hcs. lia.
      - change (N.of_nat (8 - 12 mod 8)) with 4%N. change (N.of_nat (19 / 8)) with 2%N. change (2 ^ 4)%N with 16%N. change (256 ^ 2)%N with 65536%N. change (2 ^ 4 - 1) with 15 in Hcs. lia. }
    clearbody X. destruct HX as [HX1 [HX2 [HX3 HX4]]].
    rewrite base_w_value; [|exact HX3|lia]. rewrite HX1, HX2. replace (8 * 2 - sp_len2 P * cu_lgw c) with (8 - (sp_len2 P * cu_lgw c) mod 8) by lia.
    apply N.div_mul. apply N.pow_nonzero. lia.
Qed.

Lemma no_domination M1 M2 l1 l2 : cu_lgw c <> 8 -> length M1 = n -> bytes_ok M1 -> length M2 = n -> bytes_ok M2 -> M1 <> M2 ->
  chain_lengths p M1 = Ok l1 -> chain_lengths p M2 = Ok l2 -> exists i, i < sp_len P /\ nth i l2 0 < nth i l1 0.
Proof.
  intros Hlg HM1 Hb1 HM2 Hb2 Hne H1 H2.
  destruct (lengths_ok M1 HM1 Hb1) as [x1 [E1 [_ [L1 [B1 [_ [V1 C1]]]]]]]. rewrite H1 in E1. injection E1 as <-.
  destruct (lengths_ok M2 HM2 Hb2) as [x2 [E2 [_ [L2 [B2 [_ [V2 C2]]]]]]]. rewrite H2 in E2. injection E2 as <-.
  specialize (C1 Hlg). specialize (C2 Hlg).
  destruct (existsb (fun i => nth i l2 0 <? nth i l1 0) (seq 0 (sp_len P))) eqn:Ex.
  - apply existsb_exists in Ex. destruct Ex as [i [Hi Hlt]]. apply in_seq in Hi. exists i. split; [lia|now apply Nat.ltb_lt].
  - exfalso. assert (Hle : forall i, nth i l1 0 <= nth i l2 0).
    { intros i. destruct (Nat.lt_ge_cases i (sp_len P)) as [Hi|Hi].
      - apply Nat.nlt_ge. intros Hlt. apply Bool.not_true_iff_false in Ex. apply Ex. apply existsb_exists. exists i. split; [apply in_seq; lia|now apply Nat.ltb_lt].
      - rewrite (nth_overflow l1) by lia. lia. }
    assert (Hm : forall i, nth i (firstn (sp_len1 P) l1) 0 <= nth i (firstn (sp_len1 P) l2) 0).
    { intros i. destruct (Nat.lt_ge_cases i (sp_len1 P)) as [Hi|Hi]; [now rewrite !nth_firstn_lt by exact Hi|].
      rewrite (nth_overflow (firstn _ l1)) by (rewrite firstn_length; lia). lia. }
    assert (Hs : forall i, nth i (skipn (sp_len1 P) l1) 0 <= nth i (skipn (sp_len1 P) l2) 0) by (intros i; rewrite !nth_skipn; apply Hle).
    assert (Hbw : forall i, nth i (firstn (sp_len1 P) l2) 0 <= sp_w P - 1).
    { intros i. change (sp_w P) with w. destruct (Nat.lt_ge_cases i (sp_len1 P)) as [Hi|Hi]; [rewrite nth_firstn_lt by exact Hi; specialize (B2 i); lia|].
      rewrite nth_overflow by (rewrite firstn_length; lia). lia. }
    destruct (csum_le P (firstn (sp_len1 P) l1) (firstn (sp_len1 P) l2)) as [Hc1 Hc2]; [rewrite !firstn_length; lia|exact Hm|exact Hbw|].
    assert (Hv : (digits_value w (skipn (sp_len1 P) l1) <= digits_value w (skipn (sp_len1 P) l2))%N) by (apply digits_value_le; [rewrite !skipn_length; lia|exact Hs|reflexivity]).
    rewrite C1, C2 in Hv. assert (He : firstn (sp_len1 P) l1 = firstn (sp_len1 P) l2) by (apply Hc2; lia).
    apply Hne. apply os2ip_inj; [congruence|assumption..|]. rewrite <- V1, <- V2. now rewrite He.
Qed.

(** ** Forging with dominated lengths *)
Definition advance (seed : bytes) (L T o : N) (l1 l2 : list nat) (sig : bytes) : bytes :=
  concat (map (fun i => chain P seed L T o (nth i (pieces P (sp_len P) sig) []) i (nth i l1 0) (nth i l2 0 - nth i l1 0)) (seq 0 (sp_len P))).

Lemma dominated_forgery sks seed M1 M2 x : length sks = n -> length seed = n -> length M1 = n -> bytes_ok M1 -> length M2 = n -> bytes_ok M2 ->
  addr_ok x -> a3 x = 0%N -> (forall i, nth i (wots_digits P M1) 0 <= nth i (wots_digits P M2) 0) ->
  exists sig pk x' y' z', wots_sign p M1 sks seed x = Ok (sig, x') /\ wots_pkgen p sks seed x = Ok (pk, y') /\
    wots_pk_from_sig p (advance seed (a0 x) (tree_word x) (a4 x) (wots_digits P M1) (wots_digits P M2) sig) M2 seed x = Ok (pk, z').
Proof.
  intros H1 H2 HM1 Hb1 HM2 Hb2 Hx Ht Hdom.
  destruct (wots_roundtrip sks seed M1 x x x) as [sig [pk [x' [y' [z' [S1 [S2 [_ [Hsig Hpk]]]]]]]]]; try assumption; try (repeat split; reflexivity).
  exists sig, pk, x', y'. set (L := a0 x) in *. set (T := tree_word x) in *. set (o := a4 x) in *.
  set (fs := map (fun i => chain P seed L T o (nth i (pieces P (sp_len P) sig) []) i (nth i (wots_digits P M1) 0) (nth i (wots_digits P M2) 0 - nth i (wots_digits P M1) 0)) (seq 0 (sp_len P))).
  assert (Hlen : sp_len P = wots_len p) by (rewrite <- Hsp; now apply sp_len_of).
  assert (Hpc : pieces P (sp_len P) sig = wots_sig P seed L T o sks M1).
  { rewrite Hsig, Hlen, <- Hsp. rewrite <- (wots_sig_length p (hash_of (cu_fn c) n) Hok seed L T o sks M1).
    rewrite <- (app_nil_r (concat (wots_sig (sp_of p (hash_of (cu_fn c) n)) seed L T o sks M1))). apply pieces_of_concat.
    exact (wots_sig_chunked p _ HH seed L T o sks M1). }
  assert (Hfs : fs = map (fun i => chain P seed L T o (wots_sk P seed L T o sks i) i 0 (nth i (wots_digits P M2) 0)) (seq 0 (sp_len P))).
  { unfold fs. apply map_ext_in. intros i Hi. apply in_seq in Hi. rewrite Hpc. unfold wots_sig. rewrite nth_map_seq by lia. cbn [Nat.add].
    specialize (Hdom i). set (d1 := nth i (wots_digits P M1) 0) in *. set (d2 := nth i (wots_digits P M2) 0) in *. clearbody d1 d2.
    rewrite <- Hsp. replace d2 with (d1 + (d2 - d1)) at 2 by lia. symmetry. rewrite <- Hn in H2. exact (chain_add p _ seed L T o H2 _ _ _ _ _). }
  assert (Hfs2 : fs = wots_sig P seed L T o sks M2) by exact Hfs.
  unfold advance. fold fs. rewrite Hfs2.
  rewrite <- Hn in H2, HM2.
  destruct (wots_pk_from_sig_spec p _ Hok HH seed L T o H2 (wots_sig (sp_of p (hash_of (cu_fn c) n)) seed L T o sks M2) M2 x) as [z2 [S3 _]]; try assumption.
  - exact (wots_sig_chunked p _ HH seed L T o sks M2).
  - exact (wots_sig_length p _ Hok seed L T o sks M2).
  - unfold L, T, o. now apply ots_of.
  - rewrite (wots_pk_of_sig p _ Hok) in S3 by assumption. rewrite Hsp in S3. exists z2. split; [exact S1|]. split; [exact S2|]. now rewrite Hpk.
Qed.

Lemma w256_dominated : cu_lgw c = 8 ->
  let M1 := repeat 0%N n in let M2 := 255%N :: repeat 0%N (n - 1) in forall i, nth i (wots_digits P M1) 0 <= nth i (wots_digits P M2) 0.
Proof.
  intros Hlg M1 M2 i. unfold M1, M2. rewrite (digits_any P (cu_n c) 8 (repeat 0%N n) eq_refl Hlg), (digits_any P (cu_n c) 8 (255%N :: repeat 0%N (n - 1)) eq_refl Hlg).
  apply Hall_nth. apply dom256_ok. destruct Hc as [[[-> _]|[->|[-> _]]] _]; cbn; auto.
Qed.

(** ** Trees *)
Definition sub_of (a : addr) : Prop := addr_ok a.
Lemma treehash_ok sks seed lf a auth0 : length sks = n -> length seed = n -> addr_ok a ->
  (lf < 2 ^ N.of_nat (sp_th P))%N -> length auth0 = sp_th P * n ->
  treehash p auth0 0 sks seed lf a = Ok (root P sks seed (a0 a) (tree_word a), concat (auth_path P sks seed (a0 a) (tree_word a) lf)).
Proof.
  intros H1 H2 Ha Hl H0. rewrite <- Hn in *. rewrite <- Hsp, (sp_th_of p _ Hok) in *.
  pose proof (treehash_spec p _ Hok HH sks seed (a0 a) (tree_word a) H1 H2 lf [] auth0 [] a Hl H0) as Ht.
  cbn [length app] in Ht. rewrite !app_nil_r in Ht. apply Ht. destruct (words_of a Ha) as [W0 [W1 [W2 _]]]. repeat split; assumption.
Qed.
Lemma compute_root_ok seed lf i auth a : length seed = n -> length lf = n -> Forall (fun x => length x = n) auth -> length auth = sp_th P ->
  addr_ok a -> a3 a = 2%N -> a4 a = 0%N ->
  exists a', compute_root p lf i (concat auth) 0 seed a = Ok (climb P seed (a0 a) (tree_word a) lf 0 i auth, a').
Proof.
  intros H1 H2 H3 H4 Ha Ht Ho. rewrite <- Hn in *. rewrite <- Hsp, (sp_th_of p _ Hok) in *.
  assert (Hctx : ht_ctx a (a0 a) (tree_word a)) by (split; [rewrite <- Ht; now apply words_of|exact Ho]).
  destruct (compute_root_spec p _ Hok HH seed (a0 a) (tree_word a) lf i auth [] [] a H1 H2 H3 H4 Hctx) as [a' [He _]].
  exists a'. cbn [length app] in He. rewrite app_nil_r in He. exact He.
Qed.
End Conf.

(** the L-tree for any number of nodes *)
Lemma l_tree_any {E : Env} f p seed nodes a : env_ok E -> func p = fn_code f -> fn_ok f (p_n p) -> length seed = p_n p ->
  1 <= length nodes -> length nodes = wots_len p -> Forall (fun x => length x = p_n p) nodes -> addr_ok a -> a3 a = 1%N ->
  exists a', l_tree p (concat nodes) seed a =
    Ok (ltree (mkSp (p_n p) (wots_log_w p) (padding_len p) (full_height p) (p_d p) (hash_of f (p_n p))) seed (a0 a) (tree_word a) (a4 a) (length nodes) 0 nodes, a').
Proof.
  intros HE Hf Hn Hs H1 Hl Hc Ha Ht. pose proof (hash_of_total p f HE Hf Hn) as HH. unfold l_tree. rewrite <- Hl.
  destruct (l_tree_loop_spec p _ HH seed (a0 a) (tree_word a) (a4 a) Hs (length nodes) 0 nodes [] (set_tree_height a 0)) as [tl [a' [h' [He [Hlt [Hch _]]]]]].
  - lia.
  - rewrite app_nil_r. exact Hc.
  - split; [|split].
    + rewrite <- Ht. destruct (words_of a Ha) as [W0 [W1 [W2 _]]]. repeat split; assumption.
    + unfold w4. cbn. rewrite u32_id; [reflexivity|apply Ha].
    + reflexivity.
  - rewrite app_nil_r in He. rewrite He. cbn [bind]. cbn [concat]. 
    rewrite rd_ok by (inversion Hch as [|? ? Hx _]; subst; rewrite app_length; lia).
    inversion Hch as [|? ? Hx _]; subst. cbn [skipn bind]. exists a'. unfold sp_of in *. rewrite firstn_app_len by congruence. reflexivity.
Qed.

(** supported hash combinations *)
Lemma core_hash_total {E : Env} p x : env_ok E ->
  (forall f, func p = fn_code f -> fn_ok f (p_n p) -> exists o, core_hash_rc p x = Ok (Some o) /\ length o = p_n p /\ bytes_ok o) /\
  ((forall f, func p = fn_code f -> ~ fn_ok f (p_n p)) -> core_hash_rc p x = Ok None).
Proof.
  intros HE. split.
  - intros f Hf Hn. destruct (hash_of_total p f HE Hf Hn x) as [Hc [Hl Hb]]. unfold core_hash in Hc.
    destruct (core_hash_rc p x) as [[o|]| |] eqn:Er; cbn in Hc; try discriminate. injection Hc as Ho. exists o. rewrite Ho. auto.
  - intros Hno. unfold core_hash_rc. unfold fn_ok in Hno.
    destruct (Nat.eqb_spec (p_n p) 24) as [E1|E1], (Nat.eqb_spec (p_n p) 32) as [E2|E2], (Nat.eqb_spec (p_n p) 64) as [E3|E3],
      (N.eqb_spec (func p) XMSS_SHA2) as [F1|F1], (N.eqb_spec (func p) XMSS_SHAKE128) as [F2|F2], (N.eqb_spec (func p) XMSS_SHAKE256) as [F3|F3];
      cbn [andb]; try reflexivity; exfalso;
      (try (apply (Hno SHA2 F1); first [left; split; [assumption|discriminate]|right; left; assumption|right; right; split; [assumption|discriminate]]));
      (try (apply (Hno SHAKE_128 F2); first [right; left; assumption]));
      (try (apply (Hno SHAKE_256 F3); first [left; split; [assumption|discriminate]|right; left; assumption|right; right; split; [assumption|discriminate]])).
Qed.

Lemma NoDup_map_inj {A B} (f : A -> B) l : NoDup (map f l) -> forall x y, In x l -> In y l -> f x = f y -> x = y.
Proof.
  induction l as [|a l IH]; intros Hn x y Hx Hy He; [destruct Hx|]. cbn in Hn. inversion Hn as [|? ? Ha Hn']; subst.
  destruct Hx as [->|Hx], Hy as [->|Hy]; auto.
  - exfalso. apply Ha. rewrite He. now apply in_map.
  - exfalso. apply Ha. rewrite <- He. now apply in_map.
Qed.

Lemma derived_sizes {E : Env} c p0 p : custom_ok c -> inputs c p0 ->
  xmss_xmssmt_initialize_params ref_core_sk_bytes p0 = Ok (0%Z, p) \/
  (xmss_xmssmt_initialize_params fast_core_sk_bytes p0 = Ok (0%Z, p) /\ bds_k p0 <= cu_h c / cu_d c /\ (fast_sk_size (custom_sp c) (bds_k p0) < 2 ^ 32)%N) ->
  let P := custom_sp c in
  wots_log_w p = cu_lgw c /\ wots_len1 p = sp_len1 P /\ wots_len2 p = sp_len2 P /\ wots_len p = sp_len P /\
  wots_sig_bytes p = sp_len P * cu_n c /\ tree_height p = sp_th P /\ full_height p = p_d p * tree_height p /\
  index_bytes p = sp_ib P /\ sig_bytes p = sp_sig_bytes P /\ pk_bytes p = 2 * cu_n c /\
  (xmss_xmssmt_initialize_params ref_core_sk_bytes p0 = Ok (0%Z, p) -> ModelParams.sk_bytes p = sp_ib P + 4 * cu_n c) /\
  (xmss_xmssmt_initialize_params fast_core_sk_bytes p0 = Ok (0%Z, p) -> bds_k p0 <= cu_h c / cu_d c -> (fast_sk_size P (bds_k p0) < 2 ^ 32)%N ->
     f_sk_bytes p = fast_sk_size P (bds_k p0)) /\
  inputs c p /\ bds_k p = bds_k p0.
Proof.
  intros Hc Hi Hr P.
  assert (Hex : exists skb, p = cp c (f_bds_k p0) skb).
  { destruct Hr as [Hr|[Hr _]]; rewrite (init_cp c Hc _ p0 Hi) in Hr; injection Hr as <-; eauto. }
  destruct Hex as [skb ->].
  assert (Hh : cu_h c = cu_d c * (cu_h c / cu_d c)) by apply Hc.
  assert (Hs : forall csk, xmss_xmssmt_initialize_params csk p0 = Ok (0%Z, cp c (f_bds_k p0) skb) -> skb = u64 (csk (cp c (f_bds_k p0) (f_sk_bytes p0)))).
  { intros csk He. rewrite (init_cp c Hc _ p0 Hi) in He. injection He as He. now symmetry. }
  split; [apply Nat2N.id|]. split; [apply Nat2N.id|]. split; [apply Nat2N.id|]. split; [apply Nat2N.id|]. split; [apply Nat2N.id|]. split; [apply Nat2N.id|].
  split; [unfold full_height, p_d, tree_height, cp; cbn [f_full_height f_d f_tree_height]; now rewrite !Nat2N.id|].
  split; [apply Nat2N.id|].
  split. { change (sig_bytes (cp c (f_bds_k p0) skb)) with (N.to_nat (N.of_nat (sp_ib P + cu_n c + cu_d c * ((sp_len1 P + sp_len2 P) * cu_n c) + cu_h c * cu_n c))).
    rewrite Nat2N.id. unfold sp_sig_bytes, sp_len, sp_th. fold P. change (sp_n P) with (cu_n c). change (sp_d P) with (cu_d c). change (sp_h P) with (cu_h c).
    set (t := cu_h c / cu_d c) in *. rewrite Hh at 1. ring. }
  split; [apply Nat2N.id|].
  split. { intros He. apply Hs in He. unfold ModelParams.sk_bytes. cbn [cp f_sk_bytes]. rewrite He, (cp_ref_sk c Hc). change (custom_sp (E := {| sha256 := fun _ => []; sha512 := fun _ => []; junk := fun _ => 0%N |}) c) with (custom_sp (E := {| sha256 := fun _ => []; sha512 := fun _ => []; junk := fun _ => 0%N |}) c).
    change (sp_ib P) with (sp_ib (custom_sp (E := {| sha256 := fun _ => []; sha512 := fun _ => []; junk := fun _ => 0%N |}) c)).
    generalize (sp_ib (custom_sp (E := {| sha256 := fun _ => []; sha512 := fun _ => []; junk := fun _ => 0%N |}) c)). intros ib. lia. }
  split. { intros He Hk Hlt. apply Hs in He. cbn [cp f_sk_bytes]. rewrite He. unfold bds_k in *. apply (cp_fast_sk c Hc); [|exact Hlt].
    set (t := cu_h c / cu_d c) in *. clearbody t. lia. }
  split; [|reflexivity]. repeat split.
Qed.

Lemma standard_configured mt r p0 p : In r (rows mt) ->
  parse_oid mt ref_core_sk_bytes p0 (r_oid r) = Ok (Some p) \/ parse_oid mt fast_core_sk_bytes p0 (r_oid r) = Ok (Some p) ->
  custom_ok (row_custom r) /\ configured (row_custom r) p.
Proof.
  intros Hr Hp. split.
  - pose proof (row_n_fn mt r Hr) as Hn. pose proof (rows_small mt r Hr) as Hs. unfold row_small in Hs. repeat (apply andb_prop in Hs; destruct Hs as [Hs ?]).
    split; [exact Hn|]. cbn [row_custom cu_lgw cu_pad cu_n cu_d cu_h].
    split; [auto|]. split; [destruct (Nat.eqb_spec (r_n r) 24); lia|]. split; [lia|]. split; [lia|]. split; [|lia]. lia.
  - assert (Hi : inputs (row_custom r) (row_params r 0)) by (repeat split).
    exists (row_params r 0). split; [exact Hi|]. destruct Hp as [Hp|Hp].
    + left. rewrite parse_accept_ref in Hp by assumption. injection Hp as <-. clear Hi. revert r Hr. apply (proj1 (Forall_forall _ _)).
      destruct mt; repeat (constructor; [vm_compute; reflexivity|]); constructor.
    + right. split; [reflexivity|]. rewrite parse_accept_fast in Hp by assumption. injection Hp as <-. clear Hi. revert r Hr. apply (proj1 (Forall_forall _ _)).
      destruct mt; repeat (constructor; [vm_compute; reflexivity|]); constructor.
Qed.

Lemma init_keeps_padding csk p0 rc p : xmss_xmssmt_initialize_params csk p0 = Ok (rc, p) -> f_padding_len p = f_padding_len p0.
Proof.
  unfold xmss_xmssmt_initialize_params. destruct (f_d p0 =? 0)%N; [discriminate|].
  destruct (if (f_wots_w p0 =? 4)%N then _ else _) as [[lw l2]|]; intros H; injection H as _ <-; reflexivity.
Qed.
Lemma init_determined csk p0 p1 p q : csk = ref_core_sk_bytes \/ csk = fast_core_sk_bytes ->
  f_func p0 = f_func p1 -> f_n p0 = f_n p1 -> f_padding_len p0 = f_padding_len p1 -> f_wots_w p0 = f_wots_w p1 ->
  f_full_height p0 = f_full_height p1 -> f_d p0 = f_d p1 -> f_bds_k p0 = f_bds_k p1 ->
  xmss_xmssmt_initialize_params csk p0 = Ok (0%Z, p) -> xmss_xmssmt_initialize_params csk p1 = Ok (0%Z, q) -> p = q.
Proof.
  intros Hk H1 H2 H3 H4 H5 H6 H7. unfold xmss_xmssmt_initialize_params. rewrite H1, H2, H3, H4, H5, H6, H7.
  destruct (f_d p1 =? 0)%N; [discriminate|].
  destruct (if (f_wots_w p1 =? 4)%N then _ else _) as [[lw l2]|]; intros E1 E2; [|discriminate E1].
  injection E1 as <-. injection E2 as <-. destruct Hk as [->| ->]; reflexivity.
Qed.

Lemma auth_path_root {E : Env} c p : env_ok E -> custom_ok c -> configured c p ->
  forall sk_seed pub_seed i a b auth0, length sk_seed = cu_n c -> length pub_seed = cu_n c -> addr_ok a -> addr_ok b ->
  a0 a = a0 b -> a1 a = a1 b -> a2 a = a2 b -> a3 b = 2%N -> a4 b = 0%N ->
  (i < 2 ^ N.of_nat (sp_th (custom_sp c)))%N -> length auth0 = sp_th (custom_sp c) * cu_n c ->
  exists rt auth b', treehash p auth0 0 sk_seed pub_seed i a = Ok (rt, auth) /\
    compute_root p (leaf (custom_sp c) sk_seed pub_seed (a0 a) (tree_word a) i) i auth 0 pub_seed b = Ok (rt, b').
Proof.
  intros HE Hc Hp sks seed i a b auth0 H1 H2 Ha Hb E0 E1 E2 E3 E4 Hi Hl.
  assert (Ht : tree_word b = tree_word a) by (unfold tree_word; now rewrite E1, E2).
  destruct (compute_root_ok c p HE Hc Hp seed (leaf (custom_sp c) sks seed (a0 a) (tree_word a) i) i (auth_path (custom_sp c) sks seed (a0 a) (tree_word a) i) b) as [b' Hb']; try assumption.
  - pose proof (fun T => leaf_length p _ (conf_params c p HE Hc Hp) (conf_hash c p HE Hc Hp) sks seed (a0 a) T i) as Hq.
    rewrite (conf_sp c p HE Hc Hp) in Hq. rewrite Hq. exact (conf_n c p HE Hc Hp).
  - pose proof (auth_path_chunked p _ (conf_params c p HE Hc Hp) (conf_hash c p HE Hc Hp)) as Hq.
    rewrite (conf_sp c p HE Hc Hp) in Hq. rewrite (conf_n c p HE Hc Hp) in Hq. apply Hq.
  - unfold auth_path. now rewrite map_length, seq_length.
  - do 3 eexists. split; [exact (treehash_ok c p HE Hc Hp sks seed i a auth0 H1 H2 Ha Hi Hl)|]. rewrite Hb'. rewrite <- E0, Ht.
    rewrite climb_auth_path by exact Hi. reflexivity.
Qed.

Lemma oid_hash {E : Env} mt r p0 p x : env_ok E -> In r (rows mt) ->
  parse_oid mt ref_core_sk_bytes p0 (r_oid r) = Ok (Some p) \/ parse_oid mt fast_core_sk_bytes p0 (r_oid r) = Ok (Some p) ->
  exists o, core_hash_rc p x = Ok (Some o) /\ o = hash_of (r_fn r) (r_n r) x /\ length o = r_n r.
Proof.
  intros HE Hr Hp. destruct (standard_configured mt r p0 p Hr Hp) as [Hc Hconf].
  destruct (conf_hash _ p HE Hc Hconf x) as [H1 [H2 _]]. pose proof (conf_n _ p HE Hc Hconf) as Hn. cbn [row_custom cu_n cu_fn] in *.
  unfold core_hash in H1. destruct (core_hash_rc p x) as [[o|]| |]; cbn in H1; try discriminate. injection H1 as ->. eexists. split; [reflexivity|]. split; [reflexivity|congruence].
Qed.
