(** wots.c against the specification. *)
From Verif Require Import Base Lib SpecRfc ModelUtils ModelParams ModelHash ModelWots ProofUtils ProofHash.

(** ** base_w *)
Lemma base_w_digit_byte lgw X i q b :
  bytes_ok X -> q < length X -> lgw + b <= 8 -> (i + 1) * lgw + b = 8 * (q + 1) ->
  base_w_digit lgw X i = N.to_nat ((nth q X 0 / 2 ^ N.of_nat b) mod 2 ^ N.of_nat lgw)%N.
Proof.
  intros HX Hq Hb Hi. unfold base_w_digit. f_equal.
  assert (Hsplit : X = firstn q X ++ nth q X 0%N :: skipn (S q) X) by (now apply split_nth).
  set (pre := firstn q X) in *. set (x := nth q X 0%N) in *. set (post := skipn (S q) X) in *.
  assert (Hlen : length X = q + S (length post)).
  { rewrite Hsplit, app_length. cbn [length]. unfold pre. rewrite firstn_length. lia. }
  assert (Hpost : bytes_ok post) by (now apply bytes_ok_skipn).
  assert (Hlt : (os2ip post < 256 ^ N.of_nat (length post))%N) by (now apply os2ip_lt).
  replace (8 * length X - (i + 1) * lgw) with (8 * length post + b) by lia.
  rewrite Hsplit at 1. rewrite os2ip_app, os2ip_cons. cbn [length].
  rewrite Nat2N.inj_add, N.pow_add_r, <- N.div_div; try (apply N.pow_nonzero; discriminate).
  replace (2 ^ N.of_nat (8 * length post))%N with (256 ^ N.of_nat (length post))%N
    by (rewrite pow256_pow2; f_equal; lia).
  rewrite pow256_S.
  set (Q := (256 ^ N.of_nat (length post))%N) in *.
  replace (os2ip pre * (256 * Q) + (x * Q + os2ip post))%N with (os2ip post + (os2ip pre * 256 + x) * Q)%N by lia.
  assert (HQ : (Q <> 0)%N) by (apply N.pow_nonzero; discriminate).
  rewrite N.div_add by exact HQ. rewrite (N.div_small (os2ip post)) by exact Hlt. rewrite N.add_0_l.
  (* (pre*256 + x) / 2^b mod 2^lgw = x / 2^b mod 2^lgw *)
  replace (os2ip pre * 256 + x)%N with (x + os2ip pre * 2 ^ N.of_nat (8 - b) * 2 ^ N.of_nat b)%N.
  2:{ rewrite <- N.mul_assoc, <- N.pow_add_r.
      replace (N.of_nat (8 - b) + N.of_nat b)%N with 8%N by lia. change (2 ^ 8)%N with 256%N. lia. }
  rewrite N.div_add by (apply N.pow_nonzero; discriminate).
  replace (2 ^ N.of_nat (8 - b))%N with (2 ^ N.of_nat (8 - b - lgw) * 2 ^ N.of_nat lgw)%N
    by (rewrite <- N.pow_add_r; f_equal; lia).
  rewrite N.mul_assoc, N.mod_add by (apply N.pow_nonzero; discriminate). reflexivity.
Qed.

Lemma land_w_1 x k w : w = 2 ^ k -> N.land x (N.of_nat (w - 1)) = (x mod 2 ^ N.of_nat k)%N.
Proof.
  intros ->. rewrite <- land_ones_mod. f_equal.
  rewrite Nat2N.inj_sub, Nat2N.inj_pow. reflexivity.
Qed.

Lemma base_w_loop_spec p X : params_ok p -> bytes_ok X -> forall k i inx total bits,
  (i + k) * wots_log_w p <= 8 * length X ->
  i * wots_log_w p + bits = 8 * inx -> bits < 8 -> bits mod wots_log_w p = 0 ->
  (bits <> 0 -> 1 <= inx /\ total = nth (inx - 1) X 0%N) ->
  base_w_loop p k X inx total bits = Ok (map (base_w_digit (wots_log_w p) X) (seq i k)).
Proof.
  intros Hp HX. set (lgw := wots_log_w p).
  assert (Hlgw : lgw = 2 \/ lgw = 4 \/ lgw = 8) by exact (po_lgw p Hp).
  induction k as [|k IH]; intros i inx total bits Hlen Hpos Hbits Hmod Htot; [reflexivity|].
  cbn [base_w_loop]. fold lgw.
  assert (Hdig : forall q b, q < length X -> lgw + b <= 8 -> (i + 1) * lgw + b = 8 * (q + 1) ->
     N.to_nat (N.land (N.shiftr (nth q X 0%N) (N.of_nat b)) (N.of_nat (wots_w p - 1))) =
     base_w_digit lgw X i).
  { intros q b Hq Hb Hi. rewrite (base_w_digit_byte lgw X i q b) by assumption.
    rewrite (land_w_1 _ lgw) by exact (po_w p Hp). rewrite N.shiftr_div_pow2. reflexivity. }
  destruct (Nat.eqb_spec bits 0) as [Hz|Hz].
  - assert (Hq : inx < length X) by nia.
    rewrite (rdc_ok X inx 0%N) by exact Hq. cbn [bind].
    destruct (Nat.ltb_spec 8 lgw) as [Hlt|_]; [lia|].
    rewrite Hdig by lia.
    rewrite (IH (S i)); [reflexivity|lia|lia|lia| |].
    + destruct Hlgw as [Hw | [Hw | Hw]]; rewrite Hw; reflexivity.
    + intros _. split; [lia|]. f_equal. lia.
  - destruct (Htot Hz) as [Hinx ->]. cbn [bind].
    assert (Hge : lgw <= bits).
    { destruct (le_lt_dec lgw bits) as [Hle|Hlt]; [exact Hle|].
      rewrite Nat.mod_small in Hmod by exact Hlt. lia. }
    destruct (Nat.ltb_spec bits lgw) as [Hlt|_]; [lia|].
    rewrite Hdig by lia.
    rewrite (IH (S i)); [reflexivity|lia|lia|lia| |].
    + replace bits with (bits - lgw + 1 * lgw) in Hmod by lia.
      rewrite Nat.mod_add in Hmod by lia. exact Hmod.
    + intros _. split; [lia|reflexivity].
Qed.

Lemma base_w_spec_ok {E : Env} p X k : params_ok p -> bytes_ok X -> k * wots_log_w p <= 8 * length X ->
  base_w p k X = Ok (base_w_spec (wots_log_w p) X k).
Proof.
  intros Hp HX Hk. unfold base_w, base_w_spec. apply base_w_loop_spec; auto; try lia.
  apply Nat.mod_0_l. destruct (po_lgw p Hp) as [-> | [-> | ->]]; discriminate.
Qed.

Lemma base_w_digit_lt lgw X i : base_w_digit lgw X i < 2 ^ lgw.
Proof.
  unfold base_w_digit.
  assert (Hlt : ((os2ip X / 2 ^ N.of_nat (8 * length X - (i + 1) * lgw)) mod 2 ^ N.of_nat lgw < 2 ^ N.of_nat lgw)%N)
    by (apply N.mod_lt, N.pow_nonzero; discriminate).
  rewrite <- (Nat2N.id (2 ^ lgw)). rewrite Nat2N.inj_pow. change (N.of_nat 2) with 2%N. lia.
Qed.

Lemma base_w_spec_length lgw X k : length (base_w_spec lgw X k) = k.
Proof. unfold base_w_spec. now rewrite map_length, seq_length. Qed.

(** ** lengths *)
Lemma len1_bits p : params_ok p -> wots_len1 p * wots_log_w p = 8 * p_n p.
Proof.
  intros Hp. rewrite (po_len1 p Hp). unfold sp_len1, sp_of; cbn [sp_n sp_lgw].
  destruct (po_lgw p Hp) as [-> | [-> | ->]]; lia.
Qed.
Lemma len_pos p : params_ok p -> 1 <= wots_len1 p /\ 1 <= wots_len2 p.
Proof.
  intros Hp. split.
  - pose proof (len1_bits p Hp). destruct (po_n p Hp) as [Hn|[Hn|Hn]]; lia.
  - rewrite (po_len2 p Hp). unfold sp_len2. apply Nat.le_add_l.
Qed.
Lemma w_pos p : params_ok p -> 4 <= wots_w p.
Proof. intros Hp. rewrite (po_w p Hp). destruct (po_lgw p Hp) as [-> | [-> | ->]]; cbn; lia. Qed.

Section Refine.
Context {E : Env}.
Variable p : xmss_params.
Variable Hf : bytes -> bytes.
Hypothesis Hp : params_ok p.
Hypothesis HH : hash_total p Hf.
Notation P := (sp_of p Hf).
Notation n := (p_n p).

Lemma len1_P : sp_len1 P = wots_len1 p.
Proof. symmetry. exact (po_len1 p Hp). Qed.
Lemma len2_P : sp_len2 P = wots_len2 p.
Proof. symmetry. exact (po_len2 p Hp). Qed.
Lemma len_P : sp_len P = wots_len p.
Proof. now apply sp_len_of. Qed.
Lemma w_P : sp_w P = wots_w p.
Proof. now apply sp_w_of. Qed.

(** ** chain lengths *)
Lemma csum_fold w ds : forall acc, fold_left (fun c x => c + (w - 1 - x)) ds acc =
  acc + fold_right (fun x c => (w - 1 - x) + c) 0 ds.
Proof.
  induction ds as [|x ds IH]; intros acc; cbn [fold_left fold_right]; [lia|]. rewrite IH. lia.
Qed.

Lemma chain_lengths_spec M : bytes_ok M -> length M = n -> chain_lengths p M = Ok (wots_digits P M).
Proof.
  intros HM Hl. unfold chain_lengths.
  rewrite base_w_spec_ok; [|exact Hp|exact HM|rewrite (len1_bits p Hp); lia]. rewrite bind_ok.
  unfold wots_checksum, wots_csum. rewrite firstn_all2 by (rewrite base_w_spec_length; lia).
  rewrite csum_fold, Nat.add_0_l, ull_to_bytes_spec.
  assert (Hlg : wots_log_w p <> 0) by (destruct (po_lgw p Hp) as [-> | [-> | ->]]; discriminate).
  rewrite base_w_spec_ok; [|exact Hp|apply toByte_ok|rewrite toByte_length; lia]. rewrite bind_ok.
  unfold wots_digits, csum_spec. rewrite len1_P, len2_P, w_P. cbn [sp_lgw sp_of].
  rewrite N.shiftl_mul_pow2. reflexivity.
Qed.

Lemma wots_digits_length M : length (wots_digits P M) = wots_len p.
Proof.
  unfold wots_digits. rewrite app_length, !base_w_spec_length, len1_P, len2_P. symmetry. exact (po_len p Hp).
Qed.
Lemma wots_digits_lt M i : nth i (wots_digits P M) 0 <= wots_w p - 1.
Proof.
  pose proof (w_pos p Hp) as Hw.
  destruct (le_lt_dec (wots_len p) i) as [Hge|Hlt].
  - rewrite nth_overflow; [lia|]. now rewrite wots_digits_length.
  - assert (Hin : In (nth i (wots_digits P M) 0) (wots_digits P M)) by (apply nth_In; now rewrite wots_digits_length).
    assert (Hb : nth i (wots_digits P M) 0 < 2 ^ wots_log_w p).
    { revert Hin. generalize (nth i (wots_digits P M) 0). intros x Hin.
      unfold wots_digits in Hin. apply in_app_iff in Hin. cbn [sp_lgw sp_of] in Hin.
      unfold base_w_spec in Hin. destruct Hin as [Hin|Hin];
        apply in_map_iff in Hin; destruct Hin as [j [<- _]]; apply base_w_digit_lt. }
    rewrite <- (po_w p Hp) in Hb. lia.
Qed.

(** ** chains *)
(** the address context of one one-time key *)
Definition ots_ctx (a : addr) (L T o : N) : Prop := words a L T 0 /\ w4 a o.
Definition chain_ctx (a : addr) (L T o : N) (c : nat) : Prop := ots_ctx a L T o /\ w5 a (N.of_nat c).

Lemma chain_ctx_set a L T o c : ots_ctx a L T o -> chain_ctx (set_chain_addr a (N.of_nat c)) L T o c.
Proof. intros [Hw H4]. repeat split; try apply Hw; exact H4. Qed.
Lemma chain_ctx_hash a L T o c h : chain_ctx a L T o c -> chain_ctx (set_hash_addr a h) L T o c.
Proof. intros [[Hw H4] H5]. repeat split; try apply Hw; assumption. Qed.
Lemma chain_ctx_km a L T o c h : chain_ctx a L T o c -> chain_ctx (set_key_and_mask a h) L T o c.
Proof. intros [[Hw H4] H5]. repeat split; try apply Hw; assumption. Qed.
Lemma ots_ctx_hash a L T o h : ots_ctx a L T o -> ots_ctx (set_hash_addr a h) L T o.
Proof. intros [Hw H4]. repeat split; try apply Hw; assumption. Qed.
Lemma ots_ctx_km a L T o h : ots_ctx a L T o -> ots_ctx (set_key_and_mask a h) L T o.
Proof. intros [Hw H4]. repeat split; try apply Hw; assumption. Qed.

Section OneKey.
Variables (seed : bytes) (L T o : N).
Hypothesis Hseed : length seed = n.
Notation chainS := (chain P seed L T o).

Lemma chain_length X c i s : length X = n -> length (chainS X c i s) = n.
Proof. intros HX. destruct s as [|s]; [exact HX|]. apply (F_length p Hf HH). Qed.
Lemma chain_bytes X c i s : bytes_ok X -> bytes_ok (chainS X c i s).
Proof. intros HX. destruct s as [|s]; [exact HX|]. apply (Hf_bytes p Hf HH). Qed.

(** chains compose *)
Lemma chain_add X c i s t : chainS X c i (s + t) = chainS (chainS X c i s) c (i + s) t.
Proof.
  induction t as [|t IH]; [now rewrite Nat.add_0_r|].
  rewrite Nat.add_succ_r. cbn [chain]. rewrite IH. replace (i + (s + t)) with (i + s + t) by lia. reflexivity.
Qed.

Lemma gen_chain_loop_spec c : forall s i X a, length X = n -> i + s <= wots_w p -> chain_ctx a L T o c ->
  exists a', gen_chain_loop p s i X seed a = Ok (chainS X c i s, a') /\ chain_ctx a' L T o c.
Proof.
  induction s as [|s IH]; intros i X a HX Hi Ha.
  - exists a. split; [reflexivity|exact Ha].
  - cbn [gen_chain_loop]. destruct (Nat.ltb_spec i (wots_w p)) as [_|Hge]; [|lia].
    rewrite (thash_f_spec p Hf HH X seed (set_hash_addr a (N.of_nat i)) (OTS L T o (N.of_nat c) (N.of_nat i)));
      [|exact HX|exact Hseed|].
    2:{ intros k. destruct (chain_ctx_hash a L T o c (N.of_nat i) Ha) as [[Hw H4] H5].
        apply addr_bytes_ots; try assumption; reflexivity. }
    cbn [bind].
    destruct (IH (S i) (chainS X c i 1) (set_key_and_mask (set_hash_addr a (N.of_nat i)) 1)) as [a' [Heq Ha']].
    + now apply chain_length.
    + lia.
    + apply chain_ctx_km, chain_ctx_hash, Ha.
    + exists a'. split; [|exact Ha'].
      change (S s) with (1 + s). rewrite chain_add. replace (i + 1) with (S i) by lia.
      rewrite <- Heq. cbn [chain]. rewrite Nat.add_0_r. reflexivity.
Qed.

Lemma gen_chain_spec c s i X a : length X = n -> i + s <= wots_w p -> chain_ctx a L T o c ->
  exists a', gen_chain p X i s seed a = Ok (chainS X c i s, a') /\ chain_ctx a' L T o c.
Proof.
  intros HX Hi Ha. unfold gen_chain. rewrite rd_all by auto. rewrite bind_ok. now apply gen_chain_loop_spec.
Qed.

(** ** expand_seed *)
Notation skS := (wots_sk P seed L T o).
Lemma sk_length sks c : length (skS sks c) = n.
Proof. apply (Hf_length p Hf HH). Qed.
Lemma sk_bytes sks c : bytes_ok (skS sks c).
Proof. apply (Hf_bytes p Hf HH). Qed.

Lemma expand_seed_spec sks a : length sks = n -> ots_ctx a L T o ->
  exists a', expand_seed p sks seed a = Ok (concat (map (skS sks) (seq 0 (wots_len p))), a') /\ ots_ctx a' L T o.
Proof.
  intros Hs Ha. unfold expand_seed. cbv zeta. rewrite rd_all by auto. rewrite bind_ok.
  match goal with |- exists a', forN _ _ ?body ?s0 = _ /\ _ =>
  destruct (forN_inv (fun i '(out, a) => out = concat (map (skS sks) (seq 0 i)) /\ ots_ctx a L T o /\ a6 a = u32 0 /\ a7 a = u32 0)
    (wots_len p) 0 body s0) as [[out a'] [Heq [Hout [Ha' _]]]] end.
  - intros j [out b] _ [Hout [Hb [H6 H7]]].
    cbv beta iota zeta. rewrite (prf_keygen_spec p Hf HH); [|rewrite app_length, addr_to_bytes_length; lia|exact Hs].
    cbn [bind]. eexists. split; [reflexivity|].
    pose proof (chain_ctx_set b L T o j Hb) as [[Hw H4] H5].
    split; [|split; [split; assumption|split; assumption]].
    rewrite map_seq_S, concat_app_single, Hout. f_equal. unfold wots_sk. f_equal. f_equal.
    now apply addr_bytes_ots.
  - split; [reflexivity|]. split; [|split; reflexivity]. now apply ots_ctx_km, ots_ctx_hash.
  - exists a'. rewrite Heq. split; [|exact Ha']. f_equal. f_equal. exact Hout.
Qed.

(** ** In-place chain computation over the chunks of a buffer *)
Lemma in_place_chains (g : nat -> nat) (f : nat -> bytes) body a :
  (forall i, length (f i) = n) ->
  (forall i out x b, i < wots_len p -> ots_ctx b L T o -> rd out (i * n) n = Ok x -> length x = n ->
     exists b', body i (out, b) = (let* out' := wr out (i * n) (chainS x i 0 (g i)) in Ok (out', b')) /\ ots_ctx b' L T o) ->
  ots_ctx a L T o ->
  exists a', forN (wots_len p) 0 body (concat (map f (seq 0 (wots_len p))), a)
     = Ok (concat (map (fun c => chainS (f c) c 0 (g c)) (seq 0 (wots_len p))), a') /\ ots_ctx a' L T o.
Proof.
  intros Hfl Hbody Ha. set (len := wots_len p) in *.
  destruct (forN_inv (fun i '(out, b) =>
      out = concat (map (fun c => chainS (f c) c 0 (g c)) (seq 0 i) ++ map f (seq i (len - i))) /\ ots_ctx b L T o)
    len 0 body (concat (map f (seq 0 len)), a)) as [[out a'] [Heq [Hout Ha']]].
  - intros j [out b] Hj [Hout Hb].
    assert (Hch : chunked n (map (fun c => chainS (f c) c 0 (g c)) (seq 0 j) ++ map f (seq j (len - j)))).
    { apply chunked_app. split; apply chunked_map_seq; intros; [apply chain_length|]; apply Hfl. }
    assert (Hl : length (map (fun c => chainS (f c) c 0 (g c)) (seq 0 j) ++ map f (seq j (len - j))) = len).
    { rewrite app_length, !map_length, !seq_length. lia. }
    assert (Hnth : nth j (map (fun c => chainS (f c) c 0 (g c)) (seq 0 j) ++ map f (seq j (len - j))) [] = f j).
    { rewrite app_nth2 by (rewrite map_length, seq_length; lia). rewrite map_length, seq_length, Nat.sub_diag.
      rewrite nth_map_seq by lia. f_equal. lia. }
    assert (Hrd : rd out (j * n) n = Ok (f j)).
    { rewrite Hout, (rd_chunk0 n) by (assumption || lia). now rewrite Hnth. }
    destruct (Hbody j out (f j) b) as [b' [Hbe Hb']]; [lia|exact Hb|exact Hrd|apply Hfl|].
    rewrite Hbe, Hout. rewrite (wr_chunk0 n); [|exact Hch|lia|apply chain_length, Hfl].
    cbn [bind]. eexists. split; [reflexivity|]. split; [|exact Hb'].
    f_equal. replace (len - j) with (S (len - S j)) by lia.
    change (seq j (S (len - S j))) with (j :: seq (S j) (len - S j)). cbn [map].
    rewrite upd_app_mid by (rewrite map_length, seq_length; reflexivity).
    rewrite map_seq_S, <- app_assoc. reflexivity.
  - split; [|exact Ha]. cbn [seq map app]. rewrite Nat.sub_0_r. reflexivity.
  - exists a'. rewrite Heq. split; [|exact Ha']. rewrite Hout. cbn [Nat.add]. rewrite Nat.sub_diag.
    cbn [seq map]. rewrite app_nil_r. reflexivity.
Qed.

(** ** wots_pkgen *)
Lemma wots_pkgen_spec sks a : length sks = n -> ots_ctx a L T o ->
  exists a', wots_pkgen p sks seed a = Ok (concat (wots_pk P seed L T o sks), a') /\ ots_ctx a' L T o.
Proof.
  intros Hs Ha. unfold wots_pkgen. destruct (expand_seed_spec sks a Hs Ha) as [a1 [Heq Ha1]].
  rewrite Heq. cbn [bind].
  unfold wots_pk. rewrite len_P, w_P.
  apply (in_place_chains (fun _ => wots_w p - 1) (skS sks)); [intros; apply sk_length| |exact Ha1].
  intros i out x b Hi Hb Hrd Hx.
  destruct (gen_chain_spec i (wots_w p - 1) 0 x (set_chain_addr b (N.of_nat i)) Hx) as [b' [Hge Hb']];
    [lia|now apply chain_ctx_set|].
  exists b'. split; [|apply Hb']. cbv beta iota zeta. rewrite Hrd. cbn [bind]. rewrite Hge. reflexivity.
Qed.

(** ** wots_sign *)
Lemma wots_sign_spec sks M a : length sks = n -> bytes_ok M -> length M = n -> ots_ctx a L T o ->
  exists a', wots_sign p M sks seed a = Ok (concat (wots_sig P seed L T o sks M), a') /\ ots_ctx a' L T o.
Proof.
  intros Hs HM Hl Ha. unfold wots_sign. rewrite chain_lengths_spec by assumption. rewrite bind_ok.
  destruct (expand_seed_spec sks a Hs Ha) as [a1 [Heq Ha1]]. rewrite Heq. cbn [bind].
  unfold wots_sig. rewrite len_P.
  apply (in_place_chains (fun i => nth i (wots_digits P M) 0) (skS sks)); [intros; apply sk_length| |exact Ha1].
  intros i out x b Hi Hb Hrd Hx.
  assert (Hdg := wots_digits_lt M i). pose proof (w_pos p Hp) as Hw.
  destruct (gen_chain_spec i (nth i (wots_digits P M) 0) 0 x (set_chain_addr b (N.of_nat i)) Hx) as [b' [Hge Hb']];
    [lia|now apply chain_ctx_set|].
  exists b'. split; [|apply Hb']. cbv beta iota zeta.
  rewrite (rdc_ok (wots_digits P M) i 0) by (rewrite wots_digits_length; exact Hi). cbn [bind].
  rewrite Hrd. cbn [bind]. rewrite Hge. reflexivity.
Qed.

(** ** wots_pk_from_sig *)
Lemma wots_pk_from_sig_spec sig M a : chunked n sig -> length sig = wots_len p ->
  bytes_ok M -> length M = n -> ots_ctx a L T o ->
  exists a', wots_pk_from_sig p (concat sig) M seed a = Ok (concat (wots_pkFromSig P seed L T o M sig), a')
    /\ ots_ctx a' L T o.
Proof.
  intros Hc Hsl HM Hl Ha. unfold wots_pk_from_sig. rewrite chain_lengths_spec by assumption. rewrite bind_ok.
  set (fc := fun c => let b := nth c (wots_digits P M) 0 in chainS (nth c sig []) c b (sp_w P - 1 - b)).
  match goal with |- exists a', forN _ _ ?body _ = _ /\ _ =>
    destruct (forN_inv (fun i '(out, b) => out = concat (map fc (seq 0 i)) /\ ots_ctx b L T o)
      (wots_len p) 0 body ([], a)) as [[out a'] [Heq [Hout Ha']]] end.
  - intros j [out b] Hj [Hout Hb]. cbv beta iota zeta.
    rewrite (rdc_ok (wots_digits P M) j 0) by (rewrite wots_digits_length; lia). cbn [bind].
    rewrite (rd_chunk0 n) by (assumption || lia). cbn [bind].
    assert (Hdg := wots_digits_lt M j). pose proof (w_pos p Hp) as Hw.
    destruct (gen_chain_spec j (wots_w p - 1 - nth j (wots_digits P M) 0) (nth j (wots_digits P M) 0)
       (nth j sig []) (set_chain_addr b (N.of_nat j))) as [b' [Hge Hb']];
      [apply chunked_nth; [exact Hc|lia]|lia|now apply chain_ctx_set|].
    rewrite Hge. cbn [bind]. eexists. split; [reflexivity|]. split; [|apply Hb'].
    rewrite map_seq_S, concat_app_single, Hout. f_equal. unfold fc. cbn [Nat.add]. now rewrite w_P.
  - split; [reflexivity|exact Ha].
  - exists a'. rewrite Heq. split; [|exact Ha']. rewrite Hout. unfold wots_pkFromSig. now rewrite len_P.
Qed.

(** ** WOTS+ correctness, on the specification *)
Lemma wots_pk_of_sig sks M : wots_pkFromSig P seed L T o M (wots_sig P seed L T o sks M) = wots_pk P seed L T o sks.
Proof.
  unfold wots_pkFromSig, wots_pk. apply map_ext_in. intros c Hc. apply in_seq in Hc.
  unfold wots_sig. rewrite nth_map_seq by lia. cbn [Nat.add].
  assert (Hdg := wots_digits_lt M c). pose proof (w_pos p Hp) as Hw. rewrite w_P.
  replace (wots_w p - 1) with (nth c (wots_digits P M) 0 + (wots_w p - 1 - nth c (wots_digits P M) 0)) at 2 by lia.
  rewrite chain_add. reflexivity.
Qed.

Lemma wots_pk_chunked sks : chunked n (wots_pk P seed L T o sks).
Proof. apply chunked_map_seq. intros. apply chain_length, sk_length. Qed.
Lemma wots_pk_length sks : length (wots_pk P seed L T o sks) = wots_len p.
Proof. unfold wots_pk. now rewrite map_length, seq_length, len_P. Qed.
Lemma wots_sig_chunked sks M : chunked n (wots_sig P seed L T o sks M).
Proof. apply chunked_map_seq. intros. apply chain_length, sk_length. Qed.
Lemma wots_sig_length sks M : length (wots_sig P seed L T o sks M) = wots_len p.
Proof. unfold wots_sig. now rewrite map_length, seq_length, len_P. Qed.
Lemma wots_pkFromSig_chunked sig M : chunked n sig -> length sig = wots_len p -> chunked n (wots_pkFromSig P seed L T o M sig).
Proof.
  intros Hc Hl. apply chunked_map_seq. intros. apply chain_length. apply chunked_nth; [exact Hc|]. rewrite len_P in *. lia.
Qed.
Lemma wots_pkFromSig_length sig M : length (wots_pkFromSig P seed L T o M sig) = wots_len p.
Proof. unfold wots_pkFromSig. now rewrite map_length, seq_length, len_P. Qed.
End OneKey.
End Refine.
