(** hash.c against the specification: addresses, PRF, F, H, H_msg. *)
From Verif Require Import Base Lib SpecRfc ModelUtils ModelParams ModelHash ProofUtils.

(** ** Well-formed parameter structures *)
(** the combinations of n and hash function known to core_hash *)
Definition hash_supported (p : xmss_params) : Prop :=
  (p_n p = 24 /\ (func p = XMSS_SHA2 \/ func p = XMSS_SHAKE256)) \/
  (p_n p = 32 /\ (func p = XMSS_SHA2 \/ func p = XMSS_SHAKE128 \/ func p = XMSS_SHAKE256)) \/
  (p_n p = 64 /\ (func p = XMSS_SHA2 \/ func p = XMSS_SHAKE256)).

(** the specification's parameters for a C parameter structure *)
Definition sp_of (p : xmss_params) (Hf : bytes -> bytes) : sparams :=
  mkSp (p_n p) (wots_log_w p) (padding_len p) (full_height p) (p_d p) Hf.

(** The fields satisfy the RFC formulas, and the sizes fit the machine types the code uses. *)
Record params_ok (p : xmss_params) : Prop := mkParamsOk {
  po_hash : hash_supported p;
  po_lgw : wots_log_w p = 2 \/ wots_log_w p = 4 \/ wots_log_w p = 8;
  po_w : wots_w p = 2 ^ wots_log_w p;
  po_len1 : wots_len1 p = sp_len1 (sp_of p (fun x => x));
  po_len2 : wots_len2 p = sp_len2 (sp_of p (fun x => x));
  po_len : wots_len p = wots_len1 p + wots_len2 p;
  po_wsig : wots_sig_bytes p = wots_len p * p_n p;
  po_d : 1 <= p_d p;
  po_th : 1 <= tree_height p <= 30;
  po_h : full_height p = p_d p * tree_height p;
  po_h64 : full_height p < 64;
  po_ib : index_bytes p = sp_ib (sp_of p (fun x => x));
  po_sig : sig_bytes p = index_bytes p + p_n p + p_d p * wots_sig_bytes p + full_height p * p_n p;
  po_pad : padding_len p + 3 * p_n p + index_bytes p + p_n p <= sig_bytes p;
  po_pk : pk_bytes p = 2 * p_n p;
  po_sk : index_bytes p + 4 * p_n p <= sk_bytes p }.

(** core_hash is total with n-byte results *)
Definition hash_total {E : Env} (p : xmss_params) (Hf : bytes -> bytes) : Prop :=
  forall x, core_hash p x = Ok (Hf x) /\ length (Hf x) = p_n p /\ bytes_ok (Hf x).

Lemma po_ib_le p : params_ok p -> index_bytes p <= 8 /\ full_height p <= 8 * index_bytes p.
Proof.
  intros Hp. rewrite (po_ib p Hp). unfold sp_ib, sp_of; cbn [sp_d sp_h].
  pose proof (po_h64 p Hp). pose proof (po_h p Hp) as Hh. pose proof (po_th p Hp).
  destruct (Nat.eqb_spec (p_d p) 1) as [Hd|Hd]; [rewrite Hd in Hh; lia|lia].
Qed.

Lemma po_n p : params_ok p -> p_n p = 24 \/ p_n p = 32 \/ p_n p = 64.
Proof. intros Hp. destruct (po_hash p Hp) as [[Hn _]|[[Hn _]|[Hn _]]]; auto. Qed.

Lemma sp_th_of p Hf : params_ok p -> sp_th (sp_of p Hf) = tree_height p.
Proof.
  intros Hp. unfold sp_th, sp_of; cbn [sp_h sp_d]. rewrite (po_h p Hp), Nat.mul_comm.
  apply Nat.div_mul. pose proof (po_d p Hp). lia.
Qed.
Lemma sp_len_of p Hf : params_ok p -> sp_len (sp_of p Hf) = wots_len p.
Proof. intros Hp. rewrite (po_len p Hp), (po_len1 p Hp), (po_len2 p Hp). reflexivity. Qed.
Lemma sp_w_of p Hf : params_ok p -> sp_w (sp_of p Hf) = wots_w p.
Proof. intros Hp. rewrite (po_w p Hp). reflexivity. Qed.

(** ** Addresses *)
Definition words (a : addr) (L T ty : N) : Prop :=
  a0 a = u32 L /\ a1 a = u32 (N.shiftr T 32) /\ a2 a = u32 T /\ a3 a = ty.
Definition w4 (a : addr) (x : N) : Prop := a4 a = u32 x.
Definition w5 (a : addr) (x : N) : Prop := a5 a = u32 x.
Definition w6 (a : addr) (x : N) : Prop := a6 a = u32 x.

Lemma u32_shiftr_u64 t : u32 (N.shiftr (u64 t) 32) = u32 (N.shiftr t 32).
Proof.
  unfold u32, u64. rewrite !N.shiftr_div_pow2.
  apply N.bits_inj. intros m. destruct (N.ltb_spec m 32) as [Hm|Hm].
  - rewrite !N.mod_pow2_bits_low by exact Hm. rewrite !N.div_pow2_bits.
    rewrite N.mod_pow2_bits_low; [reflexivity|lia].
  - rewrite !N.mod_pow2_bits_high by exact Hm. reflexivity.
Qed.

Lemma toByte8_words T : toByte T 8 = toByte (u32 (N.shiftr T 32)) 4 ++ toByte (u32 T) 4.
Proof.
  rewrite !toByte_u32. change 8 with (4 + 4). rewrite toByte_split. f_equal.
  rewrite N.shiftr_div_pow2. reflexivity.
Qed.

Lemma addr_bytes_ots a L T o c h k :
  words a L T 0 -> w4 a o -> w5 a c -> w6 a h -> a7 a = u32 k ->
  addr_to_bytes a = adrs_bytes (OTS L T o c h k).
Proof.
  intros (H0 & H1 & H2 & H3) H4 H5 H6 H7. unfold w4, w5, w6 in *.
  unfold addr_to_bytes, adrs_bytes. rewrite H0, H1, H2, H3, H4, H5, H6, H7, !ull_to_bytes_spec.
  rewrite toByte8_words, !toByte_u32. rewrite <- !app_assoc. reflexivity.
Qed.
Lemma addr_bytes_ltree a L T o c h k :
  words a L T 1 -> w4 a o -> w5 a c -> w6 a h -> a7 a = u32 k ->
  addr_to_bytes a = adrs_bytes (LTREE L T o c h k).
Proof.
  intros (H0 & H1 & H2 & H3) H4 H5 H6 H7. unfold w4, w5, w6 in *.
  unfold addr_to_bytes, adrs_bytes. rewrite H0, H1, H2, H3, H4, H5, H6, H7, !ull_to_bytes_spec.
  rewrite toByte8_words, !toByte_u32. rewrite <- !app_assoc. reflexivity.
Qed.
Lemma addr_bytes_htree a L T c h k :
  words a L T 2 -> a4 a = 0%N -> w5 a c -> w6 a h -> a7 a = u32 k ->
  addr_to_bytes a = adrs_bytes (HTREE L T c h k).
Proof.
  intros (H0 & H1 & H2 & H3) H4 H5 H6 H7. unfold w5, w6 in *.
  unfold addr_to_bytes, adrs_bytes. rewrite H0, H1, H2, H3, H4, H5, H6, H7, !ull_to_bytes_spec.
  rewrite toByte8_words, !toByte_u32. rewrite <- !app_assoc. reflexivity.
Qed.

Lemma adrs_bytes_length a : length (adrs_bytes a) = 32.
Proof. destruct a; unfold adrs_bytes; rewrite !app_length, !toByte_length; reflexivity. Qed.
Lemma addr_to_bytes_length a : length (addr_to_bytes a) = 32.
Proof. unfold addr_to_bytes. rewrite !ull_to_bytes_spec, !app_length, !toByte_length. reflexivity. Qed.

(** ** xor *)
Lemma xor_bytes_spec x y : xor_bytes x y = xorb_spec x y.
Proof. reflexivity. Qed.
Lemma combine_app {A B} (a b : list A) (c d : list B) :
  length a = length c -> combine (a ++ b) (c ++ d) = combine a c ++ combine b d.
Proof.
  revert c. induction a as [|x a IH]; intros [|y c] Hl; simpl in *; try discriminate; auto.
  f_equal. apply IH. lia.
Qed.
Lemma xorb_app a b c d : length a = length c -> xorb_spec (a ++ b) (c ++ d) = xorb_spec a c ++ xorb_spec b d.
Proof. intros Hl. unfold xorb_spec. rewrite combine_app by exact Hl. apply map_app. Qed.
Lemma xorb_length a b : length (xorb_spec a b) = Nat.min (length a) (length b).
Proof. unfold xorb_spec. rewrite map_length. apply combine_length. Qed.

Section Refine.
Context {E : Env}.
Variable p : xmss_params.
Variable Hf : bytes -> bytes.
Hypothesis HH : hash_total p Hf.
Notation P := (sp_of p Hf).
Notation n := (p_n p).

Lemma core_hash_ok x : core_hash p x = Ok (Hf x).
Proof. apply HH. Qed.
Lemma Hf_length x : length (Hf x) = n.
Proof. apply HH. Qed.
Lemma Hf_bytes x : bytes_ok (Hf x).
Proof. apply HH. Qed.

Lemma PRF_length k m : length (PRF P k m) = n.
Proof. apply Hf_length. Qed.
Lemma F_length k m : length (F P k m) = n.
Proof. apply Hf_length. Qed.
Lemma RAND_HASH_length s A l r : length (RAND_HASH P s A l r) = n.
Proof. apply Hf_length. Qed.
Lemma RAND_HASH_bytes s A l r : bytes_ok (RAND_HASH P s A l r).
Proof. apply Hf_bytes. Qed.

Lemma prf_spec inp key : length inp = 32 -> length key = n -> prf p inp key = Ok (PRF P key inp).
Proof.
  intros Hi Hk. unfold prf. rewrite (rd_all key) by auto. rewrite bind_ok.
  rewrite (rd_all inp) by auto. rewrite bind_ok, core_hash_ok, ull_to_bytes_spec. reflexivity.
Qed.

Lemma prf_keygen_spec inp key : length inp = n + 32 -> length key = n ->
  prf_keygen p inp key = Ok (PRF_keygen P key inp).
Proof.
  intros Hi Hk. unfold prf_keygen. rewrite (rd_all key) by auto. rewrite bind_ok.
  rewrite (rd_all inp) by auto. rewrite bind_ok, core_hash_ok, ull_to_bytes_spec. reflexivity.
Qed.

Lemma thash_f_spec x seed a (A : N -> adrs) :
  length x = n -> length seed = n ->
  (forall k, addr_to_bytes (set_key_and_mask a k) = adrs_bytes (A k)) ->
  thash_f p x seed a =
    Ok (F P (PRF P seed (adrs_bytes (A 0%N))) (xorb_spec x (PRF P seed (adrs_bytes (A 1%N)))),
        set_key_and_mask a 1).
Proof.
  intros Hx Hs HA. unfold thash_f.
  rewrite prf_spec by (auto using addr_to_bytes_length). rewrite bind_ok.
  change (set_key_and_mask (set_key_and_mask a 0) 1) with (set_key_and_mask a 1).
  rewrite prf_spec by (auto using addr_to_bytes_length). rewrite bind_ok.
  rewrite rd_all by auto. rewrite bind_ok, core_hash_ok, bind_ok, !HA, ull_to_bytes_spec. reflexivity.
Qed.

Lemma thash_h_spec l r seed a (A : N -> adrs) :
  length l = n -> length r = n -> length seed = n ->
  (forall k, addr_to_bytes (set_key_and_mask a k) = adrs_bytes (A k)) ->
  thash_h p (l ++ r) seed a = Ok (RAND_HASH P seed A l r, set_key_and_mask a 2).
Proof.
  intros Hl Hr Hs HA. unfold thash_h.
  rewrite prf_spec by (auto using addr_to_bytes_length). rewrite bind_ok.
  change (set_key_and_mask (set_key_and_mask a 0) 1) with (set_key_and_mask a 1).
  rewrite prf_spec by (auto using addr_to_bytes_length). rewrite bind_ok.
  change (set_key_and_mask (set_key_and_mask a 1) 2) with (set_key_and_mask a 2).
  rewrite prf_spec by (auto using addr_to_bytes_length). rewrite bind_ok.
  rewrite rd_all by (rewrite ?app_length; lia). rewrite bind_ok, core_hash_ok, bind_ok, !HA, ull_to_bytes_spec.
  rewrite xor_bytes_spec, xorb_app by now rewrite PRF_length. reflexivity.
Qed.

(** hash_message: digest, and what is left of the buffer *)
Lemma hash_message_spec R root idx buf off mlen r m :
  (forall b, length b = length buf -> firstn (index_bytes p + n) b = firstn (index_bytes p + n) buf -> R b = Ok r) ->
  index_bytes p + n <= off ->
  length r = n -> n <= length root ->
  off + padding_len p + 3 * n + mlen <= length buf ->
  m = firstn mlen (skipn (off + padding_len p + 3 * n) buf) ->
  exists buf', hash_message p R root idx buf off mlen = Ok (H_msg P r (firstn n root) idx m, buf') /\
    length buf' = length buf /\ firstn off buf' = firstn off buf /\
    skipn (off + padding_len p + 3 * n) buf' = skipn (off + padding_len p + 3 * n) buf.
Proof.
  intros HR Hoff Hr Hroot Hlen Hm. unfold hash_message.
  destruct (split3 buf off (padding_len p + 3 * n)) as (pre & mid & post & Hb & Hpre & Hmid & _); [lia|].
  destruct (split3 mid 0 (padding_len p)) as (x0 & mp & mrest & Hmid' & Hx0 & Hmp & _); [lia|].
  destruct x0; [|discriminate]. cbn [app] in Hmid'.
  assert (Hmr : length mrest = 3 * n) by (rewrite Hmid', app_length in Hmid; lia).
  destruct (split3 mrest 0 n) as (x1 & m1 & mrest1 & Hmr' & Hx1 & Hm1 & _); [lia|].
  destruct x1; [|discriminate]. cbn [app] in Hmr'.
  assert (Hmr1 : length mrest1 = 2 * n) by (rewrite Hmr', app_length in Hmr; lia).
  destruct (split3 mrest1 0 n) as (x2 & m2 & m3 & Hmr1' & Hx2 & Hm2 & _); [lia|].
  destruct x2; [|discriminate]. cbn [app] in Hmr1'.
  assert (Hm3 : length m3 = n) by (rewrite Hmr1', app_length in Hmr1; lia).
  subst mid mrest mrest1. rewrite <- !app_assoc in Hb.
  assert (Hskip : skipn (off + padding_len p + 3 * n) buf = post).
  { rewrite Hb. rewrite !app_assoc. rewrite skipn_app.
    rewrite skipn_all2 by (rewrite !app_length; lia).
    replace (off + padding_len p + 3 * n - length ((((pre ++ mp) ++ m1) ++ m2) ++ m3)) with 0
      by (rewrite !app_length; lia). reflexivity. }
  assert (Hfirst : firstn off buf = pre).
  { rewrite Hb, firstn_app, <- Hpre, Nat.sub_diag, firstn_all. cbn. apply app_nil_r. }
  rewrite Hskip in Hm |- *. rewrite Hfirst.
  assert (Hw : wr buf off (ull_to_bytes (padding_len p) XMSS_HASH_PADDING_HASH) =
     Ok (pre ++ ull_to_bytes (padding_len p) XMSS_HASH_PADDING_HASH ++ m1 ++ m2 ++ m3 ++ post)).
  { rewrite Hb. apply wr_app; rewrite ?ull_to_bytes_spec, ?toByte_length; lia. }
  rewrite Hw, bind_ok.
  rewrite (HR (pre ++ ull_to_bytes (padding_len p) XMSS_HASH_PADDING_HASH ++ m1 ++ m2 ++ m3 ++ post)).
  2:{ rewrite Hb, !app_length, ull_to_bytes_spec, toByte_length. lia. }
  2:{ rewrite Hb, !firstn_app. replace (index_bytes p + n - length pre) with 0 by lia. reflexivity. }
  rewrite bind_ok.
  set (pd := ull_to_bytes (padding_len p) XMSS_HASH_PADDING_HASH).
  assert (Hpd : length pd = padding_len p) by (unfold pd; rewrite ull_to_bytes_spec; apply toByte_length).
  rewrite (app_assoc pre pd). rewrite wr_app by (rewrite ?app_length; lia). rewrite bind_ok.
  rewrite rd_ok by lia. rewrite bind_ok. cbn [skipn].
  rewrite (app_assoc (pre ++ pd) r). rewrite wr_app by (rewrite ?app_length, ?firstn_length; lia). rewrite bind_ok.
  rewrite (app_assoc ((pre ++ pd) ++ r)).
  rewrite wr_app by (rewrite ?app_length, ?firstn_length, ?ull_to_bytes_spec, ?toByte_length; lia). rewrite bind_ok.
  set (ix := ull_to_bytes n idx).
  assert (Hix : length ix = n) by (unfold ix; rewrite ull_to_bytes_spec; apply toByte_length).
  assert (Hpost : mlen <= length post) by (rewrite Hb, !app_length in Hlen; lia).
  destruct (split3 post 0 mlen) as (x3 & pm & prest & Hpost' & Hx3 & Hpm & Hpm'); [lia|].
  destruct x3; [|discriminate]. cbn [app skipn] in Hpost', Hpm'.
  rewrite <- !app_assoc. rewrite Hpost'.
  assert (Hrd : rd (pre ++ pd ++ r ++ firstn n root ++ ix ++ pm ++ prest) off (mlen + padding_len p + 3 * n)
              = Ok (pd ++ r ++ firstn n root ++ ix ++ pm)).
  { replace (pre ++ pd ++ r ++ firstn n root ++ ix ++ pm ++ prest)
      with (pre ++ (pd ++ r ++ firstn n root ++ ix ++ pm) ++ prest) by (rewrite <- !app_assoc; reflexivity).
    apply rd_app; [lia|]. rewrite !app_length, firstn_length. lia. }
  rewrite Hrd, bind_ok, core_hash_ok, bind_ok.
  exists (pre ++ pd ++ r ++ firstn n root ++ ix ++ pm ++ prest). split; [|split; [|split]].
  - refine (f_equal Ok (f_equal2 pair _ eq_refl)). unfold H_msg. cbn [sp_hash sp_of sp_pad sp_n].
    rewrite Hm, <- Hpm'. unfold pd, ix. rewrite !ull_to_bytes_spec. rewrite <- !app_assoc. reflexivity.
  - rewrite Hb, !app_length, firstn_length. rewrite Hpost', app_length. lia.
  - rewrite firstn_app, <- Hpre, Nat.sub_diag, firstn_all. cbn. apply app_nil_r.
  - rewrite !app_assoc. rewrite <- (app_assoc _ pm prest). rewrite skipn_app.
    rewrite skipn_all2 by (rewrite !app_length, firstn_length; lia).
    replace (off + padding_len p + 3 * n - length ((((pre ++ pd) ++ r) ++ firstn n root) ++ ix)) with 0
      by (rewrite !app_length, firstn_length; lia). reflexivity.
Qed.
End Refine.
