(** xmss_core.c (keypair, sign) and xmssmt_core_sign_open against the specification. *)
From Verif Require Import Base Lib SpecRfc ModelUtils ModelParams ModelHash ModelWots ModelCommons ModelCore
  ProofUtils ProofHash ProofWots ProofCommons ProofTree.

Lemma rand_take_length r pos k : length (rand_take r pos k) = k.
Proof. unfold rand_take. now rewrite map_length, seq_length. Qed.
Lemma rand_take_app r pos j k : rand_take r pos (j + k) = rand_take r pos j ++ rand_take r (pos + j) k.
Proof. unfold rand_take. now rewrite seq_app, map_app. Qed.

Lemma firstn_app_len {A} (a b : list A) k : k = length a -> firstn k (a ++ b) = a.
Proof. intros ->. rewrite firstn_app, Nat.sub_diag, firstn_all. cbn. apply app_nil_r. Qed.
Lemma skipn_app_len {A} (a b : list A) k : k = length a -> skipn k (a ++ b) = b.
Proof. intros ->. rewrite skipn_app, Nat.sub_diag, skipn_all. reflexivity. Qed.
Lemma rd_at (b a x c : bytes) o l : b = a ++ x ++ c -> o = length a -> l = length x -> rd b o l = Ok x.
Proof. intros ->. apply rd_app. Qed.
Lemma wr_at (b a x c d : bytes) o : b = a ++ x ++ c -> o = length a -> length d = length x -> wr b o d = Ok (a ++ d ++ c).
Proof. intros ->. apply wr_app. Qed.

(** splitting a buffer at the front *)
Lemma cut (b : bytes) k : k <= length b -> exists x y, b = x ++ y /\ length x = k /\ x = firstn k b /\ y = skipn k b.
Proof.
  intros Hk. exists (firstn k b), (skipn k b). rewrite firstn_skipn, firstn_length.
  repeat split. lia.
Qed.

(** ** Merkle paths *)
Section Paths.
Variable P : sparams.
Variables (sks seed : bytes) (L T : N).

Lemma climb_auth i : forall k j,
  climb P seed L T (node P sks seed L T j (i / 2 ^ N.of_nat j)) j (i / 2 ^ N.of_nat j)
    (map (fun j => node P sks seed L T j (sibling (i / 2 ^ N.of_nat j))) (seq j k))
  = node P sks seed L T (j + k) (i / 2 ^ N.of_nat (j + k)).
Proof.
  induction k as [|k IH]; intros j.
  - cbn [seq map climb]. now rewrite Nat.add_0_r.
  - change (seq j (S k)) with (j :: seq (S j) k). cbn [map climb].
    replace (j + S k) with (S j + k) by lia. rewrite <- IH. rewrite div_pow_S.
    set (x := (i / 2 ^ N.of_nat j)%N). f_equal.
    change (node P sks seed L T (S j) (x / 2)) with
      (RAND_HASH P seed (HTREE L T (N.of_nat j) (x / 2)) (node P sks seed L T j (2 * (x / 2)))
         (node P sks seed L T j (2 * (x / 2) + 1))).
    rewrite sibling_spec, <- N.negb_even. destruct (N.even x) eqn:He; cbn [negb].
    + apply N.even_spec in He. destruct He as [q Hq]. rewrite Hq at 2 3 4 5.
      rewrite N.mul_comm, N.div_mul by discriminate. f_equal; f_equal; lia.
    + assert (Ho : N.odd x = true) by (now rewrite <- N.negb_even, He).
      apply N.odd_spec in Ho. destruct Ho as [q Hq].
      assert (Hd : (x / 2 = q)%N) by (rewrite Hq, (N.mul_comm 2 q), N.div_add_l by discriminate; change (1/2)%N with 0%N; lia).
      rewrite Hd. f_equal; f_equal; lia.
Qed.

(** A leaf and the siblings on its path recompute the node above. *)
Lemma climb_auth_path i : (i < 2 ^ N.of_nat (sp_th P))%N ->
  climb P seed L T (leaf P sks seed L T i) 0 i (auth_path P sks seed L T i) = root P sks seed L T.
Proof.
  intros Hi. pose proof (climb_auth i (sp_th P) 0) as Hc. change (2 ^ N.of_nat 0)%N with 1%N in Hc.
  rewrite N.div_1_r in Hc. cbn [Nat.add] in Hc. rewrite (N.div_small i) in Hc by exact Hi. exact Hc.
Qed.
End Paths.

(** ** Pieces *)
Section Pieces.
Variable P : sparams.
Notation n := (sp_n P).
Lemma pieces_length k : forall b, length (pieces P k b) = k.
Proof. induction k as [|k IH]; intros b; cbn [pieces length]; [auto|]. now rewrite IH. Qed.
Lemma pieces_chunked k : forall b, k * n <= length b -> chunked n (pieces P k b).
Proof.
  induction k as [|k IH]; intros b Hb; cbn [pieces]; [constructor|]. cbn [Nat.mul] in Hb. constructor.
  - rewrite firstn_length. lia.
  - apply IH. rewrite skipn_length. lia.
Qed.
Lemma pieces_concat k : forall b, k * n <= length b -> concat (pieces P k b) = firstn (k * n) b.
Proof.
  induction k as [|k IH]; intros b Hb; cbn [pieces concat]; [reflexivity|]. cbn [Nat.mul] in Hb |- *.
  rewrite IH by (rewrite skipn_length; lia).
  destruct (cut b n) as (x & y & -> & Hx & _ & _); [lia|]. rewrite firstn_app_len, skipn_app_len by auto.
  rewrite firstn_app, (firstn_all2 x) by lia. f_equal. f_equal. lia.
Qed.
Lemma pieces_of_concat l : forall x, chunked n l -> pieces P (length l) (concat l ++ x) = l.
Proof.
  induction l as [|a l IH]; intros x Hc; [reflexivity|]. inversion Hc as [|? ? Ha Hl]; subst.
  cbn [length pieces concat]. rewrite <- app_assoc, firstn_app_len, skipn_app_len by auto. f_equal. now apply IH.
Qed.
Lemma pieces_app k b x : k * n <= length b -> pieces P k (b ++ x) = pieces P k b.
Proof.
  intros Hb. pose proof (pieces_length k b) as Hl. pose proof (pieces_chunked k b Hb) as Hc.
  rewrite <- (pieces_of_concat (pieces P k b) (skipn (k * n) b ++ x) Hc).
  rewrite Hl, (pieces_concat k b Hb), app_assoc, firstn_skipn. reflexivity.
Qed.
End Pieces.

Section Refine.
Context {E : Env}.
Variable p : xmss_params.
Variable Hf : bytes -> bytes.
Hypothesis Hp : params_ok p.
Hypothesis HH : hash_total p Hf.
Notation P := (sp_of p Hf).
Notation n := (p_n p).
Notation th := (tree_height p).
Notation ib := (index_bytes p).
Notation wsig := (wots_sig_bytes p).

(** ** Key generation *)
Lemma keypair_spec pk sk r : 2 * n <= length pk -> ib + 4 * n <= length sk ->
  let sks := rand_take r 0 n in let prfk := rand_take r n n in let pubs := rand_take r (2 * n) n in
  let rt := mt_root P sks pubs in
  ref_xmssmt_core_keypair p pk sk r =
    Ok (0%Z, rt ++ pubs ++ skipn (2 * n) pk,
        repeat 0%N ib ++ sks ++ prfk ++ rt ++ pubs ++ skipn (ib + 4 * n) sk).
Proof.
  intros Hpk Hsk. cbv zeta. unfold ref_xmssmt_core_keypair, xmssmt_core_seed_keypair. cbv zeta.
  set (sks := rand_take r 0 n). set (prfk := rand_take r n n). set (pubs := rand_take r (2 * n) n).
  assert (Hs1 : length sks = n) by apply rand_take_length.
  assert (Hs2 : length prfk = n) by apply rand_take_length.
  assert (Hs3 : length pubs = n) by apply rand_take_length.
  assert (Hseed : rand_take r 0 (3 * n) = sks ++ prfk ++ pubs).
  { replace (3 * n) with (n + (n + n)) by lia. rewrite !rand_take_app. unfold sks, prfk, pubs.
    cbn [Nat.add]. replace (2 * n) with (n + n) by lia. reflexivity. }
  rewrite Hseed.
  destruct (cut sk ib) as (k0 & y0 & Ek & Hk0 & _); [lia|].
  destruct (cut y0 (2 * n)) as (k1 & y1 & Ek1 & Hk1 & _); [rewrite Ek, app_length in Hsk; lia|].
  destruct (cut y1 n) as (k2 & y2 & Ek2 & Hk2 & _); [rewrite Ek, Ek1, !app_length in Hsk; lia|].
  destruct (cut y2 n) as (k3 & y3 & Ek3 & Hk3 & _); [rewrite Ek, Ek1, Ek2, !app_length in Hsk; lia|].
  subst y0 y1 y2. rewrite Ek.
  assert (Etail : skipn (ib + 4 * n) (k0 ++ k1 ++ k2 ++ k3 ++ y3) = y3).
  { rewrite !app_assoc. apply skipn_app_len. rewrite !app_length. lia. }
  rewrite Etail.
  rewrite (wr_at _ [] k0 (k1 ++ k2 ++ k3 ++ y3)) by (rewrite ?repeat_length; reflexivity || lia).
  rewrite bind_ok. cbn [app].
  rewrite (rd_at (sks ++ prfk ++ pubs) [] (sks ++ prfk) pubs) by (rewrite ?app_length, <- ?app_assoc; reflexivity || lia).
  rewrite bind_ok.
  rewrite (wr_at _ (repeat 0%N ib) k1 (k2 ++ k3 ++ y3)) by (rewrite ?repeat_length, ?app_length; reflexivity || lia).
  rewrite bind_ok.
  rewrite (rd_at (sks ++ prfk ++ pubs) (sks ++ prfk) pubs []) by (rewrite ?app_length, ?app_nil_r, <- ?app_assoc; reflexivity || lia).
  rewrite bind_ok.
  rewrite (wr_at _ (repeat 0%N ib ++ (sks ++ prfk) ++ k2) k3 y3) by (rewrite <- ?app_assoc, ?app_length, ?repeat_length; reflexivity || lia).
  rewrite bind_ok.
  rewrite (rd_at _ (repeat 0%N ib ++ (sks ++ prfk) ++ k2) pubs y3) by (rewrite <- ?app_assoc, ?app_length, ?repeat_length, ?app_length; reflexivity || lia).
  rewrite bind_ok.
  destruct (cut pk n) as (q0 & z0 & Eq & Hq0 & _); [lia|].
  destruct (cut z0 n) as (q1 & z1 & Eq1 & Hq1 & _); [rewrite Eq, app_length in Hpk; lia|].
  subst z0. rewrite Eq.
  assert (Etail2 : skipn (2 * n) (q0 ++ q1 ++ z1) = z1).
  { rewrite !app_assoc. apply skipn_app_len. rewrite !app_length. lia. }
  rewrite Etail2.
  rewrite (wr_at _ q0 q1 z1) by (reflexivity || lia). rewrite bind_ok.
  rewrite (rd_at _ (repeat 0%N ib) sks (prfk ++ k2 ++ pubs ++ y3)) by (rewrite <- ?app_assoc, ?repeat_length; reflexivity || lia).
  rewrite bind_ok.
  rewrite (rd_at _ q0 pubs z1) by (reflexivity || lia). rewrite bind_ok.
  change (uninit (th * n)) with ([] ++ uninit (th * n)). rewrite <- (app_nil_r (uninit (th * n))).
  change 0 with (@length N []) at 2.
  rewrite (treehash_spec p Hf Hp HH sks pubs (N.of_nat (p_d p - 1)) 0 Hs1 Hs3).
  - rewrite bind_ok. cbn [app length].
    assert (Hrt : root P sks pubs (N.of_nat (p_d p - 1)) 0 = mt_root P sks pubs) by reflexivity.
    rewrite Hrt. set (rt := mt_root P sks pubs).
    assert (Hrl : length rt = n) by apply (node_length p Hf Hp HH).
    rewrite (wr_at _ [] q0 (pubs ++ z1)) by (reflexivity || lia). rewrite bind_ok. cbn [app].
    rewrite (rd_at _ [] rt (pubs ++ z1)) by (reflexivity || lia). rewrite bind_ok.
    rewrite (wr_at _ (repeat 0%N ib ++ sks ++ prfk) k2 (pubs ++ y3)) by (rewrite <- ?app_assoc, ?app_length, ?repeat_length; reflexivity || lia).
    rewrite bind_ok. rewrite <- !app_assoc. reflexivity.
  - apply N.neq_0_lt_0, N.pow_nonzero. discriminate.
  - apply uninit_length.
  - pose proof (po_d p Hp) as Hd. unfold p_d in *. split; [|split; reflexivity].
    cbn [a0 set_layer_addr addr_zero]. unfold u32. change (2 ^ 32)%N with 4294967296%N. lia.
Qed.

(** ** Signing *)
Definition layer_bytes : nat := wsig + th * n.
Lemma sig_bytes_eq : sig_bytes p = ib + n + p_d p * layer_bytes.
Proof. rewrite (po_sig p Hp), (po_h p Hp). unfold layer_bytes. nia. Qed.

Lemma auth_path_chunked sks seed L T i : chunked n (auth_path P sks seed L T i).
Proof. apply chunked_map_seq. intros. apply (node_length p Hf Hp HH). Qed.
Lemma auth_path_length sks seed L T i : length (auth_path P sks seed L T i) = th.
Proof. unfold auth_path. now rewrite map_length, seq_length, (sp_th_of p Hf Hp). Qed.

Lemma layer_sig_length sks seed M idx k : length (layer_sig P sks seed M idx k) = layer_bytes.
Proof.
  unfold layer_sig, layer_bytes. rewrite app_length.
  rewrite (chunked_length n) by apply (wots_sig_chunked p Hf HH).
  rewrite (chunked_length n) by apply auth_path_chunked.
  rewrite (wots_sig_length p Hf Hp), auth_path_length, (po_wsig p Hp). reflexivity.
Qed.

Lemma layers_length sks seed M idx a k :
  length (concat (map (layer_sig P sks seed M idx) (seq a k))) = k * layer_bytes.
Proof.
  rewrite (chunked_length layer_bytes); [now rewrite map_length, seq_length|].
  apply chunked_map_seq. intros. apply layer_sig_length.
Qed.

Lemma layer_msg_ok sks seed M idx k : length M = n -> bytes_ok M ->
  length (layer_msg P sks seed M idx k) = n /\ bytes_ok (layer_msg P sks seed M idx k).
Proof.
  intros HM HMb. destruct k; cbn [layer_msg]; [auto|]. split; [apply (node_length p Hf Hp HH)|apply (node_bytes p Hf HH)].
Qed.

Lemma idx_step idx i : N.shiftr (idx / 2 ^ N.of_nat (th * i)) (N.of_nat th) = tree_of P idx i.
Proof.
  unfold tree_of. rewrite (sp_th_of p Hf Hp), N.shiftr_div_pow2.
  rewrite N.div_div by apply pow2_pos. rewrite <- N.pow_add_r. f_equal. f_equal. lia.
Qed.
Lemma idx_leaf idx i : N.land (idx / 2 ^ N.of_nat (th * i)) (2 ^ N.of_nat th - 1) = leaf_of P idx i.
Proof. unfold leaf_of. now rewrite (sp_th_of p Hf Hp), land_ones_mod. Qed.
Lemma leaf_of_lt idx i : (leaf_of P idx i < 2 ^ N.of_nat th)%N.
Proof. unfold leaf_of. rewrite (sp_th_of p Hf Hp). apply N.mod_lt, pow2_pos. Qed.

(** the d layers of a signature, written behind a prefix *)
Lemma sign_body_spec idx ixb sks prfk rt seed extra sm smlen mlen m tail :
  length ixb = ib -> length sks = n -> length prfk = n -> length rt = n -> length seed = n ->
  length sm = sig_bytes p + mlen + length tail -> skipn (sig_bytes p) sm = m ++ tail -> length m = mlen ->
  let r := PRF P prfk (toByte idx 32) in
  ref_sign_body p idx (ixb ++ sks ++ prfk ++ rt ++ seed ++ extra) sm smlen mlen =
    Ok (mkSign 0 (toByte (u64 (idx + 1)) ib ++ sks ++ prfk ++ rt ++ seed ++ extra)
         (ixb ++ r ++ concat (map (layer_sig P sks seed (H_msg P r rt idx m) idx) (seq 0 (p_d p))) ++ m ++ tail)
         smlen).
Proof.
  intros Hix Hs1 Hs2 Hs3 Hs4 Hsm Htail Hm. cbv zeta. unfold ref_sign_body. cbv zeta.
  pose proof (po_th p Hp) as Hth. pose proof (po_pad p Hp) as Hpad. pose proof sig_bytes_eq as Hsb.
  set (r := PRF P prfk (toByte idx 32)).
  assert (Hr : length r = n) by apply (PRF_length p Hf HH).
  rewrite (rd_at _ [] ixb (sks ++ prfk ++ rt ++ seed ++ extra)) by (reflexivity || lia). rewrite bind_ok.
  destruct (cut sm ib) as (m0 & y0 & Em & Hm0 & _); [lia|].
  destruct (cut y0 n) as (m1 & y1 & Em1 & Hm1 & _); [rewrite Em, app_length in Hsm; lia|].
  subst y0. rewrite Em.
  assert (Hy1 : length y1 = sig_bytes p - ib - n + mlen + length tail) by (rewrite Em, !app_length in Hsm; lia).
  assert (Hy1t : skipn (sig_bytes p - ib - n) y1 = m ++ tail).
  { rewrite <- Htail, Em. rewrite app_assoc, skipn_app, (skipn_all2 (m0 ++ m1)) by (rewrite app_length; lia).
    rewrite app_length. cbn [app]. f_equal. lia. }
  rewrite (wr_at _ [] m0 (m1 ++ y1)) by (reflexivity || lia). rewrite bind_ok. cbn [app].
  rewrite ull_to_bytes_spec.
  rewrite (wr_at _ [] ixb (sks ++ prfk ++ rt ++ seed ++ extra)) by (rewrite ?toByte_length; reflexivity || lia). rewrite bind_ok. cbn [app].
  set (ix' := toByte (u64 (idx + 1)) ib). assert (Hix' : length ix' = ib) by apply toByte_length.
  rewrite (rd_at _ ix' sks (prfk ++ rt ++ seed ++ extra)) by (reflexivity || lia). rewrite bind_ok.
  rewrite (rd_at _ (ix' ++ sks) prfk (rt ++ seed ++ extra)) by (rewrite <- ?app_assoc, ?app_length; reflexivity || lia). rewrite bind_ok.
  rewrite (rd_at _ (ix' ++ sks ++ prfk) rt (seed ++ extra)) by (rewrite <- ?app_assoc, ?app_length; reflexivity || lia). rewrite bind_ok.
  rewrite (rd_at _ (ix' ++ sks ++ prfk ++ rt) seed extra) by (rewrite <- ?app_assoc, ?app_length; reflexivity || lia). rewrite bind_ok.
  rewrite ull_to_bytes_spec, (prf_spec p Hf HH) by (rewrite ?toByte_length; reflexivity || lia). rewrite bind_ok. fold r.
  rewrite (wr_at _ ixb m1 y1) by (reflexivity || lia). rewrite bind_ok.
  destruct (Nat.ltb_spec (sig_bytes p) (padding_len p + 3 * n)) as [?|_]; [lia|].
  set (sm1 := ixb ++ r ++ y1).
  assert (Hsm1l : length sm1 = sig_bytes p + mlen + length tail) by (unfold sm1; rewrite !app_length; lia).
  assert (Hsm1t : skipn (sig_bytes p) sm1 = m ++ tail).
  { unfold sm1. rewrite app_assoc, skipn_app, (skipn_all2 (ixb ++ r)) by (rewrite app_length; lia).
    rewrite app_length, <- Hy1t. cbn [app]. f_equal. lia. }
  assert (Hsm1p : firstn (ib + n) sm1 = ixb ++ r) by (unfold sm1; rewrite app_assoc; apply firstn_app_len; rewrite app_length; lia).
  destruct (hash_message_spec p Hf HH (fun b => rd b ib n) rt idx sm1 (sig_bytes p - padding_len p - 3 * n) mlen r m)
    as (sm2 & Hhm & Hsm2l & Hsm2p & Hsm2t).
  { intros b Hbl Hbp. rewrite Hsm1p in Hbp.
    apply (rd_at _ ixb r (skipn (ib + n) b)); [|lia|lia]. rewrite app_assoc, <- Hbp. symmetry. apply firstn_skipn. }
  { lia. } { exact Hr. } { lia. } { lia. }
  { replace (sig_bytes p - padding_len p - 3 * n + padding_len p + 3 * n) with (sig_bytes p) by lia.
    rewrite Hsm1t. symmetry. apply firstn_app_len. lia. }
  rewrite Hhm, bind_ok.
  replace (firstn n rt) with rt by (symmetry; apply firstn_all2; lia).
  replace (sig_bytes p - padding_len p - 3 * n + padding_len p + 3 * n) with (sig_bytes p) in Hsm2t by lia.
  rewrite Hsm1t in Hsm2t.
  assert (Hsm2q : firstn (ib + n) sm2 = ixb ++ r).
  { rewrite <- Hsm1p. replace (ib + n) with (Nat.min (ib + n) (sig_bytes p - padding_len p - 3 * n)) by lia.
    rewrite <- !firstn_firstn. f_equal. exact Hsm2p. }
  unfold shl1_int. destruct (Nat.ltb_spec th 31) as [_|]; [|lia]. rewrite bind_ok.
  set (M := H_msg P r rt idx m).
  assert (HMl : length M = n) by apply (Hf_length p Hf HH). assert (HMb : bytes_ok M) by apply (Hf_bytes p Hf HH).
  match goal with |- context [forN (p_d p) 0 ?body ?s0] =>
    destruct (forN_inv (fun i '(ix, s, off, rt', a) =>
       ix = (idx / 2 ^ N.of_nat (th * i))%N /\ off = ib + n + i * layer_bytes /\
       rt' = layer_msg P sks seed M idx i /\ a3 a = 0%N /\ length s = sig_bytes p + mlen + length tail /\
       firstn off s = ixb ++ r ++ concat (map (layer_sig P sks seed M idx) (seq 0 i)) /\
       skipn (sig_bytes p) s = m ++ tail)
      (p_d p) 0 body s0) as [[[[[ix s] off] rt'] a] [Heq (_ & Hoff & _ & _ & Hsl & Hsp & Hst)]] end.
  - intros i [[[[ix s] off] rt'] a] Hi (-> & -> & -> & Ha3 & Hsl & Hsp & Hst). cbv beta iota zeta.
    rewrite idx_leaf, idx_step.
    destruct (layer_msg_ok sks seed M idx i HMl HMb) as [Hml Hmb].
    set (T := tree_of P idx i). set (lf := leaf_of P idx i).
    assert (Hw : words (set_tree_addr (set_layer_addr a (N.of_nat i)) T) (N.of_nat i) T 0).
    { split; [reflexivity|]. split; [apply u32_shiftr_u64|]. split; [reflexivity|]. exact Ha3. }
    destruct (wots_sign_spec p Hf Hp HH seed (N.of_nat i) T lf Hs4 sks (layer_msg P sks seed M idx i)
       (set_ots_addr (set_tree_addr (set_layer_addr a (N.of_nat i)) T) lf) Hs1 Hmb Hml) as [a' [Hws Ha']].
    { split; [exact Hw|reflexivity]. }
    rewrite Hws, bind_ok.
    assert (Hroom : ib + n + i * layer_bytes + layer_bytes <= sig_bytes p).
    { rewrite Hsb. assert (S i * layer_bytes <= p_d p * layer_bytes) by (apply Nat.mul_le_mono_r; lia). cbn [Nat.mul] in *. lia. }
    set (off := ib + n + i * layer_bytes) in *.
    destruct (cut s off) as (pre & z0 & Es & Hpre & Epre & _); [lia|]. rewrite Hsp in Epre.
    assert (Hz0l : length z0 = length s - off) by (rewrite Es, app_length; lia).
    destruct (cut z0 wsig) as (z1 & z2 & Ez & Hz1 & _); [unfold layer_bytes in Hroom; lia|].
    destruct (cut z2 (th * n)) as (z3 & z4 & Ez2 & Hz3 & _); [rewrite Ez, app_length in Hz0l; unfold layer_bytes in Hroom; lia|].
    subst z0 z2. rewrite Es.
    set (wsg := wots_sig P seed (N.of_nat i) T lf sks (layer_msg P sks seed M idx i)) in *.
    assert (Hwsg : length (concat wsg) = wsig).
    { rewrite (chunked_length n) by apply (wots_sig_chunked p Hf HH). unfold wsg.
      rewrite (wots_sig_length p Hf Hp), (po_wsig p Hp). reflexivity. }
    rewrite (wr_at _ pre z1 (z3 ++ z4)) by (reflexivity || lia). rewrite bind_ok.
    rewrite app_assoc. replace (off + wsig) with (length (pre ++ concat wsg)) by (rewrite app_length; lia).
    destruct Ha' as [(Hw0 & Hw1 & Hw2 & Hw3) Hw4].
    rewrite (treehash_spec p Hf Hp HH sks seed (N.of_nat i) T Hs1 Hs4).
    2:{ apply leaf_of_lt. } 2:{ exact Hz3. } 2:{ split; [exact Hw0|split; [exact Hw1|exact Hw2]]. }
    rewrite bind_ok. eexists. split; [reflexivity|]. cbv beta iota.
    set (au := auth_path P sks seed (N.of_nat i) T lf).
    assert (Haul : length (concat au) = th * n).
    { rewrite (chunked_length n) by apply auth_path_chunked. unfold au. now rewrite auth_path_length. }
    assert (Hls : layer_sig P sks seed M idx i = concat wsg ++ concat au) by reflexivity.
    split.
    { unfold T, tree_of. rewrite (sp_th_of p Hf Hp). do 2 f_equal. lia. }
    split; [rewrite app_length; unfold layer_bytes in *; lia|]. split; [reflexivity|]. split; [exact Hw3|].
    split.
    { rewrite !app_length, Haul. rewrite !app_length in Hz0l. lia. }
    split.
    { rewrite (app_assoc (pre ++ concat wsg)). rewrite firstn_app_len by (rewrite !app_length, Haul; lia).
      rewrite map_seq_S, concat_app_single. cbn [Nat.add]. rewrite Hls, Epre, <- !app_assoc. reflexivity. }
    rewrite <- Hst, Es. rewrite !app_assoc. 
    assert (Hsk : forall (u v w : bytes), length u = length v -> length u <= sig_bytes p -> skipn (sig_bytes p) (u ++ w) = skipn (sig_bytes p) (v ++ w)).
    { intros u v w Huv Hu. rewrite !skipn_app, (skipn_all2 u), (skipn_all2 v) by lia. cbn [app]. f_equal. lia. }
    apply Hsk; rewrite !app_length, Haul; unfold layer_bytes in *; lia.
  - rewrite Nat.mul_0_r. change (2 ^ N.of_nat 0)%N with 1%N. rewrite N.div_1_r.
    split; [reflexivity|]. split; [lia|]. split; [reflexivity|]. split; [reflexivity|]. split; [lia|].
    split; [|exact Hsm2t]. cbn [seq map concat]. rewrite app_nil_r. exact Hsm2q.
  - rewrite Heq, bind_ok. cbn [Nat.add] in *. f_equal. f_equal.
    rewrite Hoff, <- Hsb in Hsp. rewrite <- Hst. rewrite <- (firstn_skipn (sig_bytes p) s) at 1. rewrite Hsp, <- !app_assoc. reflexivity.
Qed.

(** The secret key as the specification sees it: index, SK_SEED, SK_PRF, root, PUB_SEED, and
    (fast core) whatever else the key buffer holds. *)
Definition sk_layout (ixb sks prfk rt seed extra : bytes) : bytes := ixb ++ sks ++ prfk ++ rt ++ seed ++ extra.

Lemma pow2_lt_256 k m : k <= 8 * m -> (2 ^ N.of_nat k <= 256 ^ N.of_nat m)%N.
Proof.
  intros Hk. rewrite pow256_pow2. apply N.pow_le_mono_r; [discriminate|lia].
Qed.

Section Sign.
Variables (sks prfk rt seed extra : bytes).
Hypothesis Hs1 : length sks = n.
Hypothesis Hs2 : length prfk = n.
Hypothesis Hs3 : length rt = n.
Hypothesis Hs4 : length seed = n.

Lemma sign_prefix idx (sm m : bytes) smlen : (idx < 256 ^ N.of_nat ib)%N ->
  sig_bytes p + length m <= length sm ->
  exists sm1, wr sm (sig_bytes p) m = Ok sm1 /\
    length sm1 = sig_bytes p + length m + length (skipn (sig_bytes p + length m) sm) /\
    skipn (sig_bytes p) sm1 = m ++ skipn (sig_bytes p + length m) sm /\
    ref_xmssmt_core_sign p (sk_layout (toByte idx ib) sks prfk rt seed extra) sm smlen m =
      (let last := (2 ^ N.of_nat (full_height p) - 1)%N in
       let sk := sk_layout (toByte idx ib) sks prfk rt seed extra in
       if (last <=? idx)%N then
         let* sk := wr sk 0 (repeat 255%N ib) in
         let* sk := wr sk ib (repeat 0%N (ModelParams.sk_bytes p - ib)) in
         if (last <? idx)%N then Ok (mkSign (-2) sk sm1 (sig_bytes p + length m))
         else ref_sign_body p idx sk sm1 (sig_bytes p + length m) (length m)
       else ref_sign_body p idx sk sm1 (sig_bytes p + length m) (length m)).
Proof.
  intros Hidx Hsm. pose proof (po_ib_le p Hp) as [Hib8 _]. pose proof (po_h64 p Hp) as Hh.
  destruct (wr_spec sm (sig_bytes p) m Hsm) as (sm1 & Hwr & Hl & Hf1 & Hf2 & Hsk & _).
  exists sm1. split; [exact Hwr|]. split; [rewrite skipn_length; lia|]. split.
  - rewrite <- (firstn_skipn (sig_bytes p + length m) sm1) at 1. rewrite Hf2, Hsk by lia.
    rewrite <- app_assoc. apply skipn_app_len. rewrite firstn_length. lia.
  - unfold ref_xmssmt_core_sign. cbv zeta. rewrite Hwr, bind_ok.
    unfold sk_layout. rewrite (rd_at _ [] (toByte idx ib) (sks ++ prfk ++ rt ++ seed ++ extra)) by (rewrite ?toByte_length; reflexivity).
    rewrite bind_ok, bytes_to_ull_spec by (rewrite ?toByte_length; auto using toByte_ok).
    rewrite bind_ok, os2ip_toByte, N.mod_small by exact Hidx.
    unfold shl1_ull. destruct (Nat.ltb_spec (full_height p) 64) as [_|]; [|lia]. rewrite bind_ok.
    destruct (Nat.eqb_spec (full_height p) 64) as [?|_]; [lia|]. reflexivity.
Qed.

Lemma sign_spec idx sm m smlen : (idx + 1 < 2 ^ N.of_nat (full_height p))%N ->
  sig_bytes p + length m <= length sm ->
  ref_xmssmt_core_sign p (sk_layout (toByte idx ib) sks prfk rt seed extra) sm smlen m =
    Ok (mkSign 0 (sk_layout (toByte (idx + 1) ib) sks prfk rt seed extra)
         (mt_sign P sks prfk rt seed idx m ++ m ++ skipn (sig_bytes p + length m) sm)
         (sig_bytes p + length m)).
Proof.
  intros Hidx Hsm. pose proof (po_ib_le p Hp) as [_ Hibh]. pose proof (pow2_lt_256 _ _ Hibh) as Hp256.
  assert (Hh64 : (2 ^ N.of_nat (full_height p) <= 2 ^ 64)%N).
  { apply N.pow_le_mono_r; [discriminate|]. pose proof (po_h64 p Hp). lia. }
  destruct (sign_prefix idx sm m smlen) as (sm1 & _ & Hl & Ht & Heq); [lia|exact Hsm|].
  rewrite Heq. cbv zeta. destruct (N.leb_spec (2 ^ N.of_nat (full_height p) - 1) idx) as [?|_]; [lia|].
  unfold sk_layout at 1. rewrite (sign_body_spec idx (toByte idx ib) sks prfk rt seed extra sm1 _ (length m) m (skipn (sig_bytes p + length m) sm));
    [|apply toByte_length|exact Hs1|exact Hs2|exact Hs3|exact Hs4|exact Hl|exact Ht|reflexivity].
  unfold u64. rewrite N.mod_small by lia. unfold mt_sign. cbv zeta.
  replace (sp_ib P) with ib by exact (po_ib p Hp). cbn [sp_d sp_of]. unfold sk_layout. rewrite <- !app_assoc. reflexivity.
Qed.

Lemma wipe_spec ixb : length ixb = ib -> length extra = ModelParams.sk_bytes p - ib - 4 * n ->
  (let* sk := wr (sk_layout ixb sks prfk rt seed extra) 0 (repeat 255%N ib) in
   wr sk ib (repeat 0%N (ModelParams.sk_bytes p - ib))) =
  Ok (sk_layout (repeat 255%N ib) (repeat 0%N n) (repeat 0%N n) (repeat 0%N n) (repeat 0%N n) (repeat 0%N (length extra))).
Proof.
  intros Hix Hex. pose proof (po_sk p Hp) as Hsk. unfold sk_layout.
  rewrite (wr_at _ [] ixb (sks ++ prfk ++ rt ++ seed ++ extra)) by (rewrite ?repeat_length; reflexivity || lia). rewrite bind_ok. cbn [app].
  rewrite <- (app_nil_r (sks ++ prfk ++ rt ++ seed ++ extra)).
  rewrite (wr_at _ (repeat 255%N ib) (sks ++ prfk ++ rt ++ seed ++ extra) []) by (rewrite ?repeat_length, ?app_length; reflexivity || lia).
  rewrite app_nil_r. rewrite <- !repeat_app. do 3 f_equal. lia.
Qed.

Lemma sign_last_spec sm m smlen : length extra = ModelParams.sk_bytes p - ib - 4 * n ->
  sig_bytes p + length m <= length sm -> let idx := (2 ^ N.of_nat (full_height p) - 1)%N in
  let z := repeat 0%N n in let r := PRF P z (toByte idx 32) in
  ref_xmssmt_core_sign p (sk_layout (toByte idx ib) sks prfk rt seed extra) sm smlen m =
    Ok (mkSign 0 (sk_layout (toByte (2 ^ N.of_nat (full_height p)) ib) z z z z (repeat 0%N (length extra)))
         (repeat 255%N ib ++ r ++ concat (map (layer_sig P z z (H_msg P r z idx m) idx) (seq 0 (p_d p)))
           ++ m ++ skipn (sig_bytes p + length m) sm)
         (sig_bytes p + length m)).
Proof.
  intros Hex Hsm idx. cbv zeta. pose proof (po_ib_le p Hp) as [_ Hibh]. pose proof (pow2_lt_256 _ _ Hibh) as Hp256.
  pose proof (ProofTree.pow2_pos (full_height p)) as Hpos.
  assert (Hh64 : (2 ^ N.of_nat (full_height p) < 2 ^ 64)%N).
  { apply N.pow_lt_mono_r; [reflexivity|]. pose proof (po_h64 p Hp). lia. }
  destruct (sign_prefix idx sm m smlen) as (sm1 & _ & Hl & Ht & Heq); [unfold idx; lia|exact Hsm|].
  rewrite Heq. cbv zeta. fold idx. rewrite N.leb_refl, N.ltb_irrefl.
  pose proof (wipe_spec (toByte idx ib) (toByte_length _ _) Hex) as Hw.
  revert Hw. destruct (wr (sk_layout (toByte idx ib) sks prfk rt seed extra) 0 (repeat 255%N ib)) as [sk1| |]; intros Hw; try discriminate.
  cbn [bind] in Hw. rewrite bind_ok, Hw, bind_ok.
  unfold sk_layout at 1. rewrite (sign_body_spec idx (repeat 255%N ib) _ _ _ _ _ sm1 _ (length m) m (skipn (sig_bytes p + length m) sm));
    [|apply repeat_length|apply repeat_length|apply repeat_length|apply repeat_length|apply repeat_length|exact Hl|exact Ht|reflexivity].
  unfold u64. replace (idx + 1)%N with (2 ^ N.of_nat (full_height p))%N by (unfold idx; lia).
  rewrite N.mod_small by exact Hh64. reflexivity.
Qed.

Lemma sign_exhausted_spec idx sm m smlen : length extra = ModelParams.sk_bytes p - ib - 4 * n ->
  (2 ^ N.of_nat (full_height p) <= idx < 256 ^ N.of_nat ib)%N ->
  sig_bytes p + length m <= length sm ->
  exists sm', ref_xmssmt_core_sign p (sk_layout (toByte idx ib) sks prfk rt seed extra) sm smlen m =
    Ok (mkSign (-2) (sk_layout (repeat 255%N ib) (repeat 0%N n) (repeat 0%N n) (repeat 0%N n) (repeat 0%N n) (repeat 0%N (length extra)))
         sm' (sig_bytes p + length m)) /\
    wr sm (sig_bytes p) m = Ok sm'.
Proof.
  intros Hex Hidx Hsm. pose proof (ProofTree.pow2_pos (full_height p)) as Hpos.
  destruct (sign_prefix idx sm m smlen) as (sm1 & Hwr & Hl & Ht & Heq); [lia|exact Hsm|].
  exists sm1. split; [|exact Hwr]. rewrite Heq. cbv zeta.
  destruct (N.leb_spec (2 ^ N.of_nat (full_height p) - 1) idx) as [_|?]; [|lia].
  destruct (N.ltb_spec (2 ^ N.of_nat (full_height p) - 1) idx) as [_|?]; [|lia].
  pose proof (wipe_spec (toByte idx ib) (toByte_length _ _) Hex) as Hw.
  revert Hw. destruct (wr (sk_layout (toByte idx ib) sks prfk rt seed extra) 0 (repeat 255%N ib)) as [sk1| |]; intros Hw; try discriminate.
  cbn [bind] in Hw. rewrite bind_ok, Hw, bind_ok. reflexivity.
Qed.
End Sign.

(** ** Verification *)
Lemma climb_bytes_pos seed L T nd j i auth : auth <> [] -> bytes_ok (climb P seed L T nd j i auth).
Proof.
  destruct auth as [|a auth]; [congruence|]. intros _. cbn [climb]. apply (climb_bytes p Hf HH).
  destruct (N.even i); apply (RAND_HASH_bytes p Hf HH).
Qed.

Lemma open_spec m sm pk msg : length sm = sig_bytes p + length msg -> msg = skipn (sig_bytes p) sm ->
  bytes_ok (firstn ib sm) -> 2 * n <= length pk -> length sm <= length m ->
  exists m', xmssmt_core_sign_open p m sm pk =
    Ok (if mt_verify P (firstn n pk) (firstn n (skipn n pk)) (firstn (sig_bytes p) sm) msg
        then mkOpen 0 (msg ++ skipn (length msg) m') (length msg)
        else mkOpen (-1) (repeat 0%N (length msg) ++ skipn (length msg) m') 0) /\
    length m' = length m /\ skipn (sig_bytes p) m' = msg ++ skipn (sig_bytes p + length msg) m /\
    firstn (sig_bytes p - padding_len p - 3 * n) m' = firstn (sig_bytes p - padding_len p - 3 * n) m.
Proof.
  intros Hsm Hmsg Hib Hpk Hm. unfold xmssmt_core_sign_open. cbv zeta.
  pose proof (po_th p Hp) as Hth. pose proof (po_pad p Hp) as Hpad. pose proof sig_bytes_eq as Hsb.
  pose proof (po_ib_le p Hp) as [Hib8 _].
  set (rt := firstn n pk). set (seed := firstn n (skipn n pk)).
  assert (Hrt : length rt = n) by (unfold rt; rewrite firstn_length; lia).
  assert (Hseed : length seed = n) by (unfold seed; rewrite firstn_length, skipn_length; lia).
  rewrite rd_ok by lia. rewrite bind_ok. cbn [skipn]. fold rt.
  rewrite rd_ok by lia. rewrite bind_ok. fold seed.
  rewrite rd_ok by lia. rewrite bind_ok. cbn [skipn].
  rewrite bytes_to_ull_spec by (rewrite ?firstn_length; auto; lia). rewrite bind_ok.
  set (sig := firstn (sig_bytes p) sm).
  assert (Hsig : length sig = sig_bytes p) by (unfold sig; rewrite firstn_length; lia).
  assert (Esm : sm = sig ++ msg) by (unfold sig; rewrite Hmsg; symmetry; apply firstn_skipn).
  assert (Hfi : forall k, k <= sig_bytes p -> firstn k sm = firstn k sig).
  { intros k Hk. unfold sig. rewrite firstn_firstn. f_equal. lia. }
  rewrite Hfi by lia. set (idx := os2ip (firstn ib sig)).
  destruct (Nat.ltb_spec (length sm) (sig_bytes p)) as [?|_]; [lia|].
  replace (length sm - sig_bytes p) with (length msg) by lia.
  rewrite rd_ok by lia. rewrite bind_ok, <- Hmsg. rewrite firstn_all.
  destruct (wr_spec m (sig_bytes p) msg) as (m1 & Hwr & Hm1l & Hm1f & Hm1f2 & Hm1s & Hm1k); [lia|].
  rewrite Hwr, bind_ok.
  destruct (Nat.ltb_spec (sig_bytes p) (padding_len p + 3 * n)) as [?|_]; [lia|].
  set (r := firstn n (skipn ib sig)).
  assert (Hr : length r = n) by (unfold r; rewrite firstn_length, skipn_length; lia).
  assert (Hskm1 : skipn (sig_bytes p) m1 = msg ++ skipn (sig_bytes p + length msg) m).
  { rewrite <- (firstn_skipn (sig_bytes p + length msg) m1) at 1. rewrite Hm1f2, Hm1s by lia.
    rewrite <- app_assoc. apply skipn_app_len. rewrite firstn_length. lia. }
  destruct (hash_message_spec p Hf HH (fun _ => rd sm ib n) pk idx m1 (sig_bytes p - padding_len p - 3 * n) (length msg) r msg)
    as (m2 & Hhm & Hm2l & Hm2p & Hm2t).
  { intros _ _ _. rewrite rd_ok by lia. f_equal. unfold r. rewrite Esm, skipn_app.
    replace (ib - length sig) with 0 by lia. cbn [skipn]. rewrite firstn_app, skipn_length.
    replace (n - (length sig - ib)) with 0 by lia. cbn [firstn]. apply app_nil_r. }
  { lia. } { exact Hr. } { lia. } { lia. }
  { replace (sig_bytes p - padding_len p - 3 * n + padding_len p + 3 * n) with (sig_bytes p) by lia.
    rewrite Hskm1. symmetry. apply firstn_app_len. reflexivity. }
  replace (sig_bytes p - padding_len p - 3 * n + padding_len p + 3 * n) with (sig_bytes p) in Hm2t by lia.
  rewrite Hhm, bind_ok. fold rt.
  unfold shl1_int. destruct (Nat.ltb_spec th 31) as [_|]; [|lia]. rewrite bind_ok.
  set (M := H_msg P r rt idx msg).
  assert (HMl : length M = n) by apply (Hf_length p Hf HH). assert (HMb : bytes_ok M) by apply (Hf_bytes p Hf HH).
  set (final := mt_climb P seed idx M 0 (p_d p) (skipn (ib + n) sig)).
  match goal with |- context [forN (p_d p) 0 ?body ?s0] =>
    destruct (forN_inv (fun i '(rt', ix, off, oa, la, na) =>
       ix = (idx / 2 ^ N.of_nat (th * i))%N /\ off = ib + n + i * layer_bytes /\
       length rt' = n /\ bytes_ok rt' /\
       mt_climb P seed idx rt' i (p_d p - i) (skipn off sig) = final /\
       a3 oa = 0%N /\ a3 la = 1%N /\ a3 na = 2%N /\ a4 na = 0%N)
      (p_d p) 0 body s0) as [[[[[[rt' ix] off] oa] la] na] [Heq (_ & Hoff & _ & _ & Hfin & _)]] end.
  - intros i [[[[[rt' ix] off] oa] la] na] Hi (-> & -> & Hrl & Hrb & Hcl & Hoa & Hla & Hna & Hna4). cbv beta iota zeta.
    rewrite idx_leaf, idx_step.
    set (T := tree_of P idx i). set (lf := leaf_of P idx i).
    assert (Hroom : ib + n + i * layer_bytes + layer_bytes <= sig_bytes p).
    { rewrite Hsb. assert (S i * layer_bytes <= p_d p * layer_bytes) by (apply Nat.mul_le_mono_r; lia). cbn [Nat.mul] in *. lia. }
    set (off := ib + n + i * layer_bytes) in *.
    set (sg := skipn off sig) in *. assert (Hsgl : length sg = sig_bytes p - off) by (unfold sg; rewrite skipn_length; lia).
    set (ws := pieces P (wots_len p) sg). set (au := pieces P th (skipn (wots_len p * n) sg)).
    pose proof (po_wsig p Hp) as Hwl.
    assert (Hwsc : chunked n ws) by (apply (pieces_chunked P); cbn [sp_n sp_of]; unfold layer_bytes in Hroom; lia).
    assert (Hwsl : length ws = wots_len p) by apply pieces_length.
    assert (Hauc : chunked n au) by (apply (pieces_chunked P); cbn [sp_n sp_of]; rewrite skipn_length; unfold layer_bytes in Hroom; lia).
    assert (Haul : length au = th) by apply pieces_length.
    assert (Ews : concat ws = firstn wsig sg).
    { unfold ws. rewrite pieces_concat; cbn [sp_n sp_of]; [now rewrite Hwl|unfold layer_bytes in Hroom; lia]. }
    assert (Eau : concat au = firstn (th * n) (skipn wsig sg)).
    { unfold au. rewrite pieces_concat; cbn [sp_n sp_of]; [now rewrite Hwl|rewrite skipn_length; unfold layer_bytes in Hroom; lia]. }
    assert (Esm3 : sm = (firstn off sig ++ concat ws) ++ concat au ++ (skipn layer_bytes sg ++ msg)).
    { rewrite Esm. rewrite <- (firstn_skipn off sig) at 1. fold sg. rewrite <- !app_assoc. f_equal.
      rewrite Ews, Eau. rewrite <- (firstn_skipn wsig sg) at 1. rewrite <- !app_assoc. f_equal.
      rewrite <- (firstn_skipn (th * n) (skipn wsig sg)) at 1. rewrite <- !app_assoc. f_equal.
      rewrite skipn_skipn. f_equal. f_equal. unfold layer_bytes. lia. }
    assert (Hpl : length (firstn off sig) = off) by (rewrite firstn_length; lia).
    assert (Hwcl : length (concat ws) = wsig) by (rewrite (chunked_length n) by exact Hwsc; lia).
    assert (Hrd : rd sm off wsig = Ok (concat ws)).
    { apply (rd_at _ (firstn off sig) (concat ws) (concat au ++ skipn layer_bytes sg ++ msg)); [|lia|lia].
      rewrite Esm3 at 1. rewrite <- app_assoc. reflexivity. }
    rewrite Hrd, bind_ok.
    destruct (wots_pk_from_sig_spec p Hf Hp HH seed (N.of_nat i) T lf Hseed ws rt'
       (set_ots_addr (set_tree_addr (set_layer_addr oa (N.of_nat i)) T) lf) Hwsc Hwsl Hrb Hrl) as [oa' [Hws (Hoa' & _)]].
    { split; [|reflexivity]. split; [reflexivity|]. split; [apply u32_shiftr_u64|]. split; [reflexivity|]. exact Hoa. }
    rewrite Hws, bind_ok.
    destruct (l_tree_spec p Hf Hp HH seed (N.of_nat i) T lf (wots_pkFromSig P seed (N.of_nat i) T lf rt' ws)
       (set_ltree_addr (set_tree_addr (set_layer_addr la (N.of_nat i)) T) lf) Hseed) as (la' & h' & Hlt & (Hla' & _)).
    { apply wots_pkFromSig_chunked; assumption. }
    { apply (wots_pkFromSig_length p Hf Hp). }
    { split; [reflexivity|]. split; [apply u32_shiftr_u64|]. split; [reflexivity|]. exact Hla. }
    { reflexivity. }
    rewrite Hlt, bind_ok.
    set (lfv := ltree P seed (N.of_nat i) T lf (sp_len P) 0 (wots_pkFromSig P seed (N.of_nat i) T lf rt' ws)) in *.
    assert (Hlfl : length lfv = n).
    { unfold lfv. apply (ltree_length p Hf HH); [apply wots_pkFromSig_chunked; assumption|].
      rewrite (wots_pkFromSig_length p Hf Hp). pose proof (len_pos p Hp). rewrite (po_len p Hp). lia. }
    replace (off + wsig) with (length (firstn off sig ++ concat ws)) by (rewrite app_length; lia).
    destruct (compute_root_spec p Hf Hp HH seed (N.of_nat i) T lfv lf au (firstn off sig ++ concat ws) (skipn layer_bytes sg ++ msg)
       (set_tree_addr (set_layer_addr na (N.of_nat i)) T) Hseed Hlfl Hauc Haul) as (na' & Hcr & (Hna' & Hna4')).
    { split; [|exact Hna4]. split; [reflexivity|]. split; [apply u32_shiftr_u64|]. split; [reflexivity|]. exact Hna. }
    rewrite <- Esm3 in Hcr. rewrite Hcr, bind_ok. eexists. split; [reflexivity|]. cbv beta iota.
    split.
    { unfold T, tree_of. rewrite (sp_th_of p Hf Hp). do 2 f_equal. lia. }
    split; [rewrite app_length; unfold layer_bytes in *; lia|].
    split; [now apply (climb_length p Hf HH)|].
    split.
    { apply climb_bytes_pos. intros Hnil. rewrite Hnil in Haul. cbn [length] in Haul. lia. }
    split; [|split; [apply Hoa'|split; [apply Hla'|split; [apply Hna'|exact Hna4']]]].
    rewrite <- Hcl. replace (p_d p - i) with (S (p_d p - S i)) by lia. cbn [mt_climb].
    rewrite (sp_len_of p Hf Hp), (sp_th_of p Hf Hp). cbn [sp_n sp_of]. fold T lf ws au.
    unfold rootFromSig. rewrite (sp_len_of p Hf Hp). unfold lfv. rewrite (sp_len_of p Hf Hp). f_equal.
    unfold sg. rewrite skipn_skipn. f_equal. rewrite app_length, Hpl, Hwcl. unfold layer_bytes. rewrite Hwl. lia.
  - rewrite Nat.mul_0_r. change (2 ^ N.of_nat 0)%N with 1%N. rewrite N.div_1_r, Nat.sub_0_r.
    split; [reflexivity|]. split; [lia|]. split; [exact HMl|]. split; [exact HMb|].
    split; [reflexivity|]. repeat split.
  - rewrite Heq, bind_ok. cbn [Nat.add] in *. rewrite Nat.sub_diag in Hfin. cbn [mt_climb] in Hfin. subst rt'.
    exists m2.
    assert (Hv : mt_verify P rt seed sig msg = if list_eq_dec N.eq_dec final rt then true else false).
    { unfold mt_verify. cbv zeta. replace (sp_ib P) with ib by exact (po_ib p Hp). reflexivity. }
    rewrite Hv. destruct (list_eq_dec N.eq_dec final rt) as [_|_].
    + rewrite rd_ok by (rewrite Hoff, <- Hsb; lia). rewrite Hoff, <- Hsb, bind_ok, <- Hmsg, firstn_all.
      rewrite wr_ok by lia. rewrite bind_ok. cbn [firstn app Nat.add].
      split; [reflexivity|]. split; [lia|]. split; [now rewrite Hm2t|].
      rewrite Hm2p. apply Hm1k. lia.
    + rewrite wr_ok by (rewrite repeat_length; lia). rewrite bind_ok, repeat_length. cbn [firstn app Nat.add].
      split; [reflexivity|]. split; [lia|]. split; [now rewrite Hm2t|].
      rewrite Hm2p. apply Hm1k. lia.
Qed.

(** ** The specification's signatures verify *)
Lemma mt_climb_layers sks seed M idx x : length sks = n -> length seed = n ->
  forall cnt k,
  mt_climb P seed idx (layer_msg P sks seed M idx k) k cnt
    (concat (map (layer_sig P sks seed M idx) (seq k cnt)) ++ x) = layer_msg P sks seed M idx (k + cnt).
Proof.
  intros Hs Hse. induction cnt as [|cnt IH]; intros k.
  - cbn [mt_climb]. now rewrite Nat.add_0_r.
  - change (seq k (S cnt)) with (k :: seq (S k) cnt). cbn [map concat mt_climb].
    set (T := tree_of P idx k). set (i := leaf_of P idx k). set (msg := layer_msg P sks seed M idx k).
    set (rest := concat (map (layer_sig P sks seed M idx) (seq (S k) cnt)) ++ x).
    set (ws := wots_sig P seed (N.of_nat k) T i sks msg). set (au := auth_path P sks seed (N.of_nat k) T i).
    assert (Hls : (layer_sig P sks seed M idx k ++ concat (map (layer_sig P sks seed M idx) (seq (S k) cnt))) ++ x
       = concat ws ++ concat au ++ rest).
    { unfold layer_sig at 1. fold T i msg ws au. unfold rest. rewrite <- !app_assoc. reflexivity. }
    rewrite Hls.
    assert (Hwl : sp_len P = length ws) by (unfold ws, wots_sig; rewrite map_length, seq_length; reflexivity).
    assert (Hwc : chunked n ws) by apply (wots_sig_chunked p Hf HH).
    assert (Hal : sp_th P = length au) by (unfold au, auth_path; rewrite map_length, seq_length; reflexivity).
    assert (Hac : chunked n au) by apply auth_path_chunked.
    rewrite Hwl at 1. rewrite (pieces_of_concat P) by exact Hwc.
    rewrite (skipn_app_len (concat ws)) by (rewrite (chunked_length n) by exact Hwc; rewrite Hwl; reflexivity).
    rewrite Hal at 1. rewrite (pieces_of_concat P) by exact Hac.
    rewrite app_assoc. rewrite (skipn_app_len (concat ws ++ concat au))
      by (rewrite app_length, !(chunked_length n) by assumption; rewrite Hwl, Hal; cbn [sp_n sp_of]; lia).
    unfold rootFromSig, ws. rewrite (wots_pk_of_sig p Hf Hp seed _ _ _ Hse).
    change (ltree P seed (N.of_nat k) T i (sp_len P) 0 (wots_pk P seed (N.of_nat k) T i sks)) with (leaf P sks seed (N.of_nat k) T i).
    unfold au. rewrite (climb_auth_path P sks seed (N.of_nat k) T i).
    + change (root P sks seed (N.of_nat k) T) with (layer_msg P sks seed M idx (S k)).
      unfold rest. rewrite IH. f_equal. lia.
    + rewrite (sp_th_of p Hf Hp). apply leaf_of_lt.
Qed.

Lemma mt_sign_length sks prfk rt seed idx m : length (mt_sign P sks prfk rt seed idx m) = sig_bytes p.
Proof.
  unfold mt_sign. cbv zeta. replace (sp_ib P) with ib by exact (po_ib p Hp).
  rewrite !app_length, toByte_length, (PRF_length p Hf HH). cbn [sp_d sp_of]. rewrite layers_length, sig_bytes_eq. lia.
Qed.

Lemma mt_sign_verifies sks prfk seed idx m : length sks = n -> length prfk = n -> length seed = n ->
  (idx < 2 ^ N.of_nat (full_height p))%N ->
  mt_verify P (mt_root P sks seed) seed (mt_sign P sks prfk (mt_root P sks seed) seed idx m) m = true.
Proof.
  intros Hs1 Hs2 Hs3 Hidx. pose proof (po_ib_le p Hp) as [_ Hibh]. pose proof (pow2_lt_256 _ _ Hibh) as Hp256.
  pose proof (po_d p Hp) as Hd.
  unfold mt_verify, mt_sign. cbv zeta. replace (sp_ib P) with ib by exact (po_ib p Hp). cbn [sp_n sp_d sp_of].
  set (rt := mt_root P sks seed). set (r := PRF P prfk (toByte idx 32)).
  assert (Hr : length r = n) by apply (PRF_length p Hf HH).
  set (M := H_msg P r rt idx m). set (ly := concat (map (layer_sig P sks seed M idx) (seq 0 (p_d p)))).
  rewrite (firstn_app_len (toByte idx ib)) by (now rewrite toByte_length).
  rewrite os2ip_toByte, N.mod_small by lia.
  rewrite (skipn_app_len (toByte idx ib)) by (now rewrite toByte_length).
  rewrite (firstn_app_len r) by auto. fold M.
  rewrite app_assoc, (skipn_app_len (toByte idx ib ++ r)) by (rewrite app_length, toByte_length; lia).
  pose proof (mt_climb_layers sks seed M idx [] Hs1 Hs3 (p_d p) 0) as Hc. rewrite app_nil_r in Hc.
  fold ly in Hc. cbn [layer_msg Nat.add] in Hc. rewrite Hc.
  destruct (p_d p) as [|d] eqn:Ed; [lia|]. cbn [layer_msg].
  assert (Ht : tree_of P idx d = 0%N).
  { unfold tree_of. rewrite (sp_th_of p Hf Hp). apply N.div_small. replace (th * (d + 1)) with (full_height p); [exact Hidx|].
    rewrite (po_h p Hp), Ed. lia. }
  rewrite Ht. unfold rt, mt_root. cbn [sp_d sp_of]. rewrite Ed. replace (S d - 1) with d by lia.
  destruct (list_eq_dec N.eq_dec _ _) as [_|Hne]; [reflexivity|congruence].
Qed.
End Refine.
