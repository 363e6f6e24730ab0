(** WOTS+ on an address all of whose words are arbitrary (the test program test/wots.c reads
    the address from /dev/urandom; its type word need not be 0). *)
From Verif Require Import Base Lib ModelUtils ModelParams ModelHash ModelWots SpecRfc ProofUtils ProofHash ProofWots.

Section Any.
Context {E : Env}.
Variable p : xmss_params.
Variable Hf : bytes -> bytes.
Hypothesis Hp : params_ok p.
Hypothesis HH : hash_total p Hf.
Notation P := (sp_of p Hf).
Notation n := (p_n p).
Variables (seed : bytes) (x0 x1 x2 x3 x4 : N).
Hypothesis Hseed : length seed = n.

Definition same (a : addr) : Prop := a0 a = x0 /\ a1 a = x1 /\ a2 a = x2 /\ a3 a = x3 /\ a4 a = x4.
Definition ctx (a : addr) (c : nat) : Prop := same a /\ a5 a = u32 (N.of_nat c).
Definition AB (c h : nat) (k : N) : bytes := addr_to_bytes (mkAddr x0 x1 x2 x3 x4 (u32 (N.of_nat c)) (u32 (N.of_nat h)) (u32 k)).
Fixpoint chainA (X : bytes) (c i s : nat) : bytes :=
  match s with
  | O => X
  | S s => F P (PRF P seed (AB c (i + s) 0)) (xorb_spec (chainA X c i s) (PRF P seed (AB c (i + s) 1)))
  end.
Definition skA (sks : bytes) (c : nat) : bytes := PRF_keygen P sks (seed ++ AB c 0 0).
Definition pkA (sks : bytes) : list bytes := map (fun c => chainA (skA sks c) c 0 (sp_w P - 1)) (seq 0 (sp_len P)).
Definition sigA (sks M : bytes) : list bytes := map (fun c => chainA (skA sks c) c 0 (nth c (wots_digits P M) 0)) (seq 0 (sp_len P)).
Definition pkFromA (M : bytes) (sig : list bytes) : list bytes :=
  map (fun c => let b := nth c (wots_digits P M) 0 in chainA (nth c sig []) c b (sp_w P - 1 - b)) (seq 0 (sp_len P)).

Lemma ctx_set a c : same a -> ctx (set_chain_addr a (N.of_nat c)) c.
Proof. intros Hs. split; [exact Hs|reflexivity]. Qed.
Lemma chain_length X c i s : length X = n -> length (chainA X c i s) = n.
Proof. intros HX. destruct s as [|s]; [exact HX|]. apply (F_length p Hf HH). Qed.
Lemma chain_add X c i s t : chainA X c i (s + t) = chainA (chainA X c i s) c (i + s) t.
Proof.
  induction t as [|t IH]; [now rewrite Nat.add_0_r|].
  rewrite Nat.add_succ_r. cbn [chainA]. rewrite IH. replace (i + (s + t)) with (i + s + t) by lia. reflexivity.
Qed.
Lemma thash_f_any x a : length x = n ->
  thash_f p x seed a = Ok (F P (PRF P seed (addr_to_bytes (set_key_and_mask a 0))) (xorb_spec x (PRF P seed (addr_to_bytes (set_key_and_mask a 1)))), set_key_and_mask a 1).
Proof.
  intros Hx. unfold thash_f.
  rewrite (prf_spec p Hf HH) by (auto using addr_to_bytes_length). rewrite bind_ok.
  change (set_key_and_mask (set_key_and_mask a 0) 1) with (set_key_and_mask a 1).
  rewrite (prf_spec p Hf HH) by (auto using addr_to_bytes_length). rewrite bind_ok.
  rewrite rd_all by auto. rewrite bind_ok, (core_hash_ok p Hf HH), bind_ok, ull_to_bytes_spec. reflexivity.
Qed.
Lemma ctx_bytes a c h k : ctx a c -> addr_to_bytes (set_key_and_mask (set_hash_addr a (N.of_nat h)) k) = AB c h k.
Proof. destruct a. intros [(A0 & A1 & A2 & A3 & A4) A5]. cbn in *. subst. reflexivity. Qed.

Lemma gen_chain_loop_any c : forall s i X a, length X = n -> i + s <= wots_w p -> ctx a c ->
  exists a', gen_chain_loop p s i X seed a = Ok (chainA X c i s, a') /\ ctx a' c.
Proof.
  induction s as [|s IH]; intros i X a HX Hi Ha.
  - exists a. split; [reflexivity|exact Ha].
  - cbn [gen_chain_loop]. destruct (Nat.ltb_spec i (wots_w p)) as [_|Hge]; [|lia].
    rewrite thash_f_any by exact HX. rewrite bind_ok.
    destruct (IH (S i) (chainA X c i 1) (set_key_and_mask (set_hash_addr a (N.of_nat i)) 1)) as [a' [Heq Ha']].
    + now apply chain_length.
    + lia.
    + destruct a; exact Ha.
    + exists a'. split; [|exact Ha'].
      change (S s) with (1 + s). rewrite chain_add. replace (i + 1) with (S i) by lia.
      rewrite <- Heq. cbn [chainA]. rewrite Nat.add_0_r, !(ctx_bytes a c i _ Ha). reflexivity.
Qed.
Lemma gen_chain_any c s i X a : length X = n -> i + s <= wots_w p -> ctx a c ->
  exists a', gen_chain p X i s seed a = Ok (chainA X c i s, a') /\ ctx a' c.
Proof. intros HX Hi Ha. unfold gen_chain. rewrite rd_all by auto. rewrite bind_ok. now apply gen_chain_loop_any. Qed.

Lemma sk_length sks c : length (skA sks c) = n.
Proof. apply (Hf_length p Hf HH). Qed.
Lemma expand_seed_any sks a : length sks = n -> same a ->
  exists a', expand_seed p sks seed a = Ok (concat (map (skA sks) (seq 0 (wots_len p))), a') /\ same a'.
Proof.
  intros Hs Ha. unfold expand_seed. cbv zeta. rewrite rd_all by auto. rewrite bind_ok.
  match goal with |- exists a', forN _ _ ?body ?s0 = _ /\ _ =>
  destruct (forN_inv (fun i '(out, a) => out = concat (map (skA sks) (seq 0 i)) /\ same a /\ a6 a = u32 0 /\ a7 a = u32 0)
    (wots_len p) 0 body s0) as [[out a'] [Heq [Hout [Ha' _]]]] end.
  - intros j [out b] _ [Hout [Hb [H6 H7]]].
    cbv beta iota zeta. rewrite (prf_keygen_spec p Hf HH); [|rewrite app_length, addr_to_bytes_length; lia|exact Hs].
    cbn [bind]. eexists. split; [reflexivity|].
    split; [|split; [exact Hb|split; assumption]].
    rewrite map_seq_S, concat_app_single, Hout. f_equal. unfold skA. f_equal. f_equal.
    destruct b. destruct Hb as (A0 & A1 & A2 & A3 & A4). cbn in *. subst. reflexivity.
  - split; [reflexivity|]. split; [|split; reflexivity]. exact Ha.
  - exists a'. rewrite Heq. split; [|exact Ha']. f_equal. f_equal. exact Hout.
Qed.

(** ** In-place chain computation over the chunks of a buffer *)
Lemma in_place_chains (g : nat -> nat) (f : nat -> bytes) body a :
  (forall i, length (f i) = n) ->
  (forall i out x b, i < wots_len p -> same b -> rd out (i * n) n = Ok x -> length x = n ->
     exists b', body i (out, b) = (let* out' := wr out (i * n) (chainA x i 0 (g i)) in Ok (out', b')) /\ same b') ->
  same a ->
  exists a', forN (wots_len p) 0 body (concat (map f (seq 0 (wots_len p))), a)
     = Ok (concat (map (fun c => chainA (f c) c 0 (g c)) (seq 0 (wots_len p))), a') /\ same a'.
Proof.
  intros Hfl Hbody Ha. set (len := wots_len p) in *.
  destruct (forN_inv (fun i '(out, b) =>
      out = concat (map (fun c => chainA (f c) c 0 (g c)) (seq 0 i) ++ map f (seq i (len - i))) /\ same b)
    len 0 body (concat (map f (seq 0 len)), a)) as [[out a'] [Heq [Hout Ha']]].
  - intros j [out b] Hj [Hout Hb].
    assert (Hch : chunked n (map (fun c => chainA (f c) c 0 (g c)) (seq 0 j) ++ map f (seq j (len - j)))).
    { apply chunked_app. split; apply chunked_map_seq; intros; [apply chain_length|]; apply Hfl. }
    assert (Hl : length (map (fun c => chainA (f c) c 0 (g c)) (seq 0 j) ++ map f (seq j (len - j))) = len).
    { rewrite app_length, !map_length, !seq_length. lia. }
    assert (Hnth : nth j (map (fun c => chainA (f c) c 0 (g c)) (seq 0 j) ++ map f (seq j (len - j))) [] = f j).
    { rewrite app_nth2 by (rewrite map_length, seq_length; lia). rewrite map_length, seq_length, Nat.sub_diag.
      rewrite nth_map_seq by lia. f_equal. lia. }
    assert (Hrd : rd out (j * n) n = Ok (f j)).
    { rewrite Hout, (rd_chunk0 n) by (assumption || lia). now rewrite Hnth. }
    destruct (Hbody j out (f j) b) as [b' [Hbe Hb']]; [lia|exact Hb|exact Hrd|apply Hfl|].
    rewrite Hbe, Hout. rewrite (wr_chunk0 n); [|exact Hch|lia|apply chain_length, Hfl].
    cbn [bind]. eexists. split; [reflexivity|]. split; [|exact Hb'].
    f_equal. replace (len - j) with (S (len - S j)) by lia.
    change (seq j (S (len - S j))) with (j :: seq (S j) (len - S j)). cbn [map].
    rewrite upd_app_mid by (rewrite map_length, seq_length; reflexivity).
    rewrite map_seq_S, <- app_assoc. reflexivity.
  - split; [|exact Ha]. cbn [seq map app]. rewrite Nat.sub_0_r. reflexivity.
  - exists a'. rewrite Heq. split; [|exact Ha']. rewrite Hout. cbn [Nat.add]. rewrite Nat.sub_diag.
    cbn [seq map]. rewrite app_nil_r. reflexivity.
Qed.

(** ** wots_pkgen *)
Lemma wots_pkgen_any sks a : length sks = n -> same a ->
  exists a', wots_pkgen p sks seed a = Ok (concat (pkA sks), a') /\ same a'.
Proof.
  intros Hs Ha. unfold wots_pkgen. destruct (expand_seed_any sks a Hs Ha) as [a1 [Heq Ha1]].
  rewrite Heq. cbn [bind].
  unfold pkA. rewrite (len_P p Hf Hp), (w_P p Hf Hp).
  apply (in_place_chains (fun _ => wots_w p - 1) (skA sks)); [intros; apply sk_length| |exact Ha1].
  intros i out x b Hi Hb Hrd Hx.
  destruct (gen_chain_any i (wots_w p - 1) 0 x (set_chain_addr b (N.of_nat i)) Hx) as [b' [Hge Hb']];
    [lia|now apply ctx_set|].
  exists b'. split; [|apply Hb']. cbv beta iota zeta. rewrite Hrd. cbn [bind]. rewrite Hge. reflexivity.
Qed.

(** ** wots_sign *)
Lemma wots_sign_any sks M a : length sks = n -> bytes_ok M -> length M = n -> same a ->
  exists a', wots_sign p M sks seed a = Ok (concat (sigA sks M), a') /\ same a'.
Proof.
  intros Hs HM Hl Ha. unfold wots_sign. rewrite (chain_lengths_spec p Hf Hp) by assumption. rewrite bind_ok.
  destruct (expand_seed_any sks a Hs Ha) as [a1 [Heq Ha1]]. rewrite Heq. cbn [bind].
  unfold sigA. rewrite (len_P p Hf Hp).
  apply (in_place_chains (fun i => nth i (wots_digits P M) 0) (skA sks)); [intros; apply sk_length| |exact Ha1].
  intros i out x b Hi Hb Hrd Hx.
  assert (Hdg := wots_digits_lt p Hf Hp M i). pose proof (w_pos p Hp) as Hw.
  destruct (gen_chain_any i (nth i (wots_digits P M) 0) 0 x (set_chain_addr b (N.of_nat i)) Hx) as [b' [Hge Hb']];
    [lia|now apply ctx_set|].
  exists b'. split; [|apply Hb']. cbv beta iota zeta.
  rewrite (rdc_ok (wots_digits P M) i 0) by (rewrite (wots_digits_length p Hf Hp); exact Hi). cbn [bind].
  rewrite Hrd. cbn [bind]. rewrite Hge. reflexivity.
Qed.

(** ** wots_pk_from_sig *)
Lemma wots_pk_from_sig_any sig M a : chunked n sig -> length sig = wots_len p ->
  bytes_ok M -> length M = n -> same a ->
  exists a', wots_pk_from_sig p (concat sig) M seed a = Ok (concat (pkFromA M sig), a')
    /\ same a'.
Proof.
  intros Hc Hsl HM Hl Ha. unfold wots_pk_from_sig. rewrite (chain_lengths_spec p Hf Hp) by assumption. rewrite bind_ok.
  set (fc := fun c => let b := nth c (wots_digits P M) 0 in chainA (nth c sig []) c b (sp_w P - 1 - b)).
  match goal with |- exists a', forN _ _ ?body _ = _ /\ _ =>
    destruct (forN_inv (fun i '(out, b) => out = concat (map fc (seq 0 i)) /\ same b)
      (wots_len p) 0 body ([], a)) as [[out a'] [Heq [Hout Ha']]] end.
  - intros j [out b] Hj [Hout Hb]. cbv beta iota zeta.
    rewrite (rdc_ok (wots_digits P M) j 0) by (rewrite (wots_digits_length p Hf Hp); lia). cbn [bind].
    rewrite (rd_chunk0 n) by (assumption || lia). cbn [bind].
    assert (Hdg := wots_digits_lt p Hf Hp M j). pose proof (w_pos p Hp) as Hw.
    destruct (gen_chain_any j (wots_w p - 1 - nth j (wots_digits P M) 0) (nth j (wots_digits P M) 0)
       (nth j sig []) (set_chain_addr b (N.of_nat j))) as [b' [Hge Hb']];
      [apply chunked_nth; [exact Hc|lia]|lia|now apply ctx_set|].
    rewrite Hge. cbn [bind]. eexists. split; [reflexivity|]. split; [|apply Hb'].
    rewrite map_seq_S, concat_app_single, Hout. f_equal. unfold fc. cbn [Nat.add]. now rewrite (w_P p Hf Hp).
  - split; [reflexivity|exact Ha].
  - exists a'. rewrite Heq. split; [|exact Ha']. rewrite Hout. unfold pkFromA. now rewrite (len_P p Hf Hp).
Qed.


Lemma pk_of_sigA sks M : pkFromA M (sigA sks M) = pkA sks.
Proof.
  unfold pkFromA, pkA. apply map_ext_in. intros c Hc. apply in_seq in Hc. cbv zeta. unfold sigA. rewrite nth_map_seq by lia. cbn [Nat.add].
  rewrite <- (Nat.add_0_l (nth c (wots_digits P M) 0)) at 2. rewrite <- chain_add. f_equal.
  pose proof (wots_digits_lt p Hf Hp M c) as Hd. rewrite (w_P p Hf Hp). lia.
Qed.
Lemma sigA_chunked sks M : chunked n (sigA sks M).
Proof. apply chunked_map_seq. intros. apply chain_length, sk_length. Qed.
Lemma sigA_length sks M : length (sigA sks M) = wots_len p.
Proof. unfold sigA. rewrite map_length, seq_length. apply (len_P p Hf Hp). Qed.

(** signing, then recovering the public key, on one address struct that all three calls share *)
Lemma wots_any sks M a : length sks = n -> bytes_ok M -> length M = n -> same a ->
  exists pk sig b c d, wots_pkgen p sks seed a = Ok (pk, b) /\ wots_sign p M sks seed b = Ok (sig, c) /\ wots_pk_from_sig p sig M seed c = Ok (pk, d).
Proof.
  intros Hs HM Hl Ha.
  destruct (wots_pkgen_any sks a Hs Ha) as (b & R1 & Hb). destruct (wots_sign_any sks M b Hs HM Hl Hb) as (c & R2 & Hc).
  destruct (wots_pk_from_sig_any (sigA sks M) M c (sigA_chunked sks M) (sigA_length sks M) HM Hl Hc) as (d & R3 & _).
  rewrite pk_of_sigA in R3. exists (concat (pkA sks)), (concat (sigA sks M)), b, c, d. split; [exact R1|]. split; [exact R2|exact R3].
Qed.

Lemma wots_any3 sks M x y z : length sks = n -> bytes_ok M -> length M = n -> same x -> same y -> same z ->
  exists pk sig x' y' z', wots_sign p M sks seed x = Ok (sig, x') /\ wots_pkgen p sks seed y = Ok (pk, y') /\ wots_pk_from_sig p sig M seed z = Ok (pk, z').
Proof.
  intros Hs HM Hl Hx Hy Hz.
  destruct (wots_pkgen_any sks y Hs Hy) as (b & R1 & Hb). destruct (wots_sign_any sks M x Hs HM Hl Hx) as (c & R2 & Hc).
  destruct (wots_pk_from_sig_any (sigA sks M) M z (sigA_chunked sks M) (sigA_length sks M) HM Hl Hz) as (d & R3 & _).
  rewrite pk_of_sigA in R3. exists (concat (pkA sks)), (concat (sigA sks M)), c, b, d. split; [exact R2|]. split; [exact R1|exact R3].
Qed.
End Any.
