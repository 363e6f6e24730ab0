(** The number of hash calls of signing and of verifying what was signed, digit by digit. *)
From Verif Require Import Base Lib SpecRfc ModelUtils ModelParams ModelHash ModelWots ModelCommons ModelCore
  ProofUtils ProofHash ProofWots ProofCommons ProofTree ProofCore.
From Verif Require Import ModelCost ProofCost ProofCost2 ModelWork ProofWork ProofWork2 ProofWork3.

Lemma cbind_ok {A B} (a : A) (f : A -> cost B) : cbind (free (Ok a)) f = f a.
Proof. unfold cbind. cbn [out free count]. destruct (f a). reflexivity. Qed.
(** a counted step whose result is known *)
Lemma runs_know {A B} (c : cost A) (f : A -> cost B) a K (Q : B -> N -> Prop) y :
  out c = Ok y -> runs c a (fun _ l => l = a) -> (a <= K)%N -> runs (f y) (K - a) (fun z j => Q z (a + j)%N) -> runs (cbind c f) K Q.
Proof. intros Hy Hc Ha Hf. apply (runs_then _ _ a); [exact Hc|exact Ha|]. intros x Hx. rewrite Hy in Hx. injection Hx as <-. exact Hf. Qed.
(** a loop whose states are known *)
Lemma runs_for_know {S} (I : nat -> S -> Prop) (h : nat -> N) k : forall i (body : nat -> S -> cost S) s,
  I i s -> (forall j s, i <= j -> j < i + k -> I j s -> runs (body j s) (h j) (fun _ l => l = h j) /\ exists s', out (body j s) = Ok s' /\ I (Datatypes.S j) s') ->
  runs (cforN k i body s) (sumN h i k) (fun s' l => l = sumN h i k /\ I (i + k) s').
Proof.
  induction k as [|k IH]; intros i body s Hi Hb; cbn [cforN]; [rstep; rewrite Nat.add_0_r; split; [reflexivity|exact Hi]|]. rewrite sumN_S.
  destruct (Hb i s ltac:(lia) ltac:(lia) Hi) as (H1 & s' & H2 & H3). apply (runs_know _ _ (h i) _ _ s' H2 H1); [lia|].
  assert (Hn : runs (cforN k (Datatypes.S i) body s') (sumN h (Datatypes.S i) k) (fun s2 l => l = sumN h (Datatypes.S i) k /\ I (Datatypes.S i + k) s2)).
  { apply (IH (Datatypes.S i) body s' H3). intros j s2 A1 A2 A3. apply Hb; [lia|lia|exact A3]. }
  eapply runs_weak; [exact Hn|lia|]. intros y l _ [-> Hy]. split; [reflexivity|]. rewrite <- plus_n_Sm. exact Hy.
Qed.

Section Refine.
Context {E : Env}.
Variable p : xmss_params.
Variable Hf : bytes -> bytes.
Hypothesis Hp : params_ok p.
Hypothesis HH : hash_total p Hf.
Notation P := (sp_of p Hf).
Notation n := (p_n p).
Notation th := (tree_height p).
Notation ib := (index_bytes p).
Notation wsig := (wots_sig_bytes p).
Notation layer_bytes := (layer_bytes p).
Notation sig_bytes_eq := (sig_bytes_eq p Hp).
Notation auth_path_chunked := (auth_path_chunked p Hf Hp HH).
Notation auth_path_length := (auth_path_length p Hf Hp).
Notation idx_leaf := (idx_leaf p Hf Hp).
Notation idx_step := (idx_step p Hf Hp).
Notation leaf_of_lt := (leaf_of_lt p Hf Hp).
Notation layer_msg_ok := (layer_msg_ok p Hf Hp HH).

Lemma sign_body_work idx ixb sks prfk rt seed extra sm smlen mlen m tail :
  length ixb = ib -> length sks = n -> length prfk = n -> length rt = n -> length seed = n ->
  length sm = sig_bytes p + mlen + length tail -> skipn (sig_bytes p) sm = m ++ tail -> length m = mlen ->
  let r := PRF P prfk (toByte idx 32) in
  let K := (2 + sumN (fun i => layer_sign p (layer_msg P sks seed (H_msg P r rt idx m) idx i)) 0 (p_d p))%N in
  runs (ref_sign_body_w p idx (ixb ++ sks ++ prfk ++ rt ++ seed ++ extra) sm smlen mlen) K (fun _ l => l = K).
Proof.
  intros Hix Hs1 Hs2 Hs3 Hs4 Hsm Htail Hm. cbv zeta. unfold ref_sign_body_w. cbv zeta.
  pose proof (po_th p Hp) as Hth. pose proof (po_pad p Hp) as Hpad. pose proof sig_bytes_eq as Hsb.
  set (r := PRF P prfk (toByte idx 32)).
  assert (Hr : length r = n) by apply (PRF_length p Hf HH).
  rewrite (rd_at _ [] ixb (sks ++ prfk ++ rt ++ seed ++ extra)) by (reflexivity || lia). rewrite cbind_ok.
  destruct (cut sm ib) as (m0 & y0 & Em & Hm0 & _); [lia|].
  destruct (cut y0 n) as (m1 & y1 & Em1 & Hm1 & _); [rewrite Em, app_length in Hsm; lia|].
  subst y0. rewrite Em.
  assert (Hy1 : length y1 = sig_bytes p - ib - n + mlen + length tail) by (rewrite Em, !app_length in Hsm; lia).
  assert (Hy1t : skipn (sig_bytes p - ib - n) y1 = m ++ tail).
  { rewrite <- Htail, Em. rewrite app_assoc, skipn_app, (skipn_all2 (m0 ++ m1)) by (rewrite app_length; lia).
    rewrite app_length. cbn [app]. f_equal. lia. }
  rewrite (wr_at _ [] m0 (m1 ++ y1)) by (reflexivity || lia). rewrite cbind_ok. cbn [app].
  rewrite ull_to_bytes_spec.
  rewrite (wr_at _ [] ixb (sks ++ prfk ++ rt ++ seed ++ extra)) by (rewrite ?toByte_length; reflexivity || lia). rewrite cbind_ok. cbn [app].
  set (ix' := toByte (u64 (idx + 1)) ib). assert (Hix' : length ix' = ib) by apply toByte_length.
  rewrite (rd_at _ ix' sks (prfk ++ rt ++ seed ++ extra)) by (reflexivity || lia). rewrite cbind_ok.
  rewrite (rd_at _ (ix' ++ sks) prfk (rt ++ seed ++ extra)) by (rewrite <- ?app_assoc, ?app_length; reflexivity || lia). rewrite cbind_ok.
  rewrite (rd_at _ (ix' ++ sks ++ prfk) rt (seed ++ extra)) by (rewrite <- ?app_assoc, ?app_length; reflexivity || lia). rewrite cbind_ok.
  rewrite (rd_at _ (ix' ++ sks ++ prfk ++ rt) seed extra) by (rewrite <- ?app_assoc, ?app_length; reflexivity || lia). rewrite cbind_ok.
  rewrite ull_to_bytes_spec.
  apply (runs_know _ _ 1%N _ _ r); [rewrite ew_prf; apply (prf_spec p Hf HH); rewrite ?toByte_length; reflexivity || lia|apply w_prf|lia|].
  rewrite (wr_at _ ixb m1 y1) by (reflexivity || lia). rewrite cbind_ok.
  destruct (Nat.ltb_spec (sig_bytes p) (padding_len p + 3 * n)) as [?|_]; [lia|].
  set (sm1 := ixb ++ r ++ y1).
  assert (Hsm1l : length sm1 = sig_bytes p + mlen + length tail) by (unfold sm1; rewrite !app_length; lia).
  assert (Hsm1t : skipn (sig_bytes p) sm1 = m ++ tail).
  { unfold sm1. rewrite app_assoc, skipn_app, (skipn_all2 (ixb ++ r)) by (rewrite app_length; lia).
    rewrite app_length, <- Hy1t. cbn [app]. f_equal. lia. }
  assert (Hsm1p : firstn (ib + n) sm1 = ixb ++ r) by (unfold sm1; rewrite app_assoc; apply firstn_app_len; rewrite app_length; lia).
  destruct (hash_message_spec p Hf HH (fun b => rd b ib n) rt idx sm1 (sig_bytes p - padding_len p - 3 * n) mlen r m)
    as (sm2 & Hhm & Hsm2l & Hsm2p & Hsm2t).
  { intros b Hbl Hbp. rewrite Hsm1p in Hbp.
    apply (rd_at _ ixb r (skipn (ib + n) b)); [|lia|lia]. rewrite app_assoc, <- Hbp. symmetry. apply firstn_skipn. }
  { lia. } { exact Hr. } { lia. } { lia. }
  { replace (sig_bytes p - padding_len p - 3 * n + padding_len p + 3 * n) with (sig_bytes p) by lia.
    rewrite Hsm1t. symmetry. apply firstn_app_len. lia. }
  replace (firstn n rt) with rt in Hhm by (symmetry; apply firstn_all2; lia).
  set (M := H_msg P r rt idx m) in *.
  apply (runs_know _ _ 1%N _ _ (M, sm2)); [rewrite ew_hash_message; exact Hhm|apply w_hmsg|lia|].
  replace (sig_bytes p - padding_len p - 3 * n + padding_len p + 3 * n) with (sig_bytes p) in Hsm2t by lia.
  unfold shl1_int. destruct (Nat.ltb_spec th 31) as [_|]; [|lia]. rewrite cbind_ok.
  assert (HMl : length M = n) by apply (Hf_length p Hf HH). assert (HMb : bytes_ok M) by apply (Hf_bytes p Hf HH).
  set (Inv := fun (i : nat) '((ix, s, off, rt', a) : N * bytes * nat * bytes * addr) =>
       ix = (idx / 2 ^ N.of_nat (th * i))%N /\ off = ib + n + i * layer_bytes /\
       rt' = layer_msg P sks seed M idx i /\ a3 a = 0%N /\ length s = sig_bytes p + mlen + length tail).
  eapply (runs_bind _ _ _ (fun _ => 0%N)).
  - apply (runs_for_know Inv (fun i => layer_sign p (layer_msg P sks seed M idx i))).
    + unfold Inv. rewrite Nat.mul_0_r. change (2 ^ N.of_nat 0)%N with 1%N. rewrite N.div_1_r.
      split; [reflexivity|]. split; [lia|]. split; [reflexivity|]. split; [reflexivity|]. lia.
    + intros i [[[[ix s] off] rt'] a] _ Hi (-> & -> & -> & Ha3 & Hsl). cbv beta iota zeta.
      rewrite idx_leaf, idx_step.
      destruct (layer_msg_ok sks seed M idx i HMl HMb) as [Hml Hmb].
      set (T := tree_of P idx i). set (lf := leaf_of P idx i).
      assert (Hw : words (set_tree_addr (set_layer_addr a (N.of_nat i)) T) (N.of_nat i) T 0).
      { split; [reflexivity|]. split; [apply u32_shiftr_u64|]. split; [reflexivity|]. exact Ha3. }
      destruct (wots_sign_spec p Hf Hp HH seed (N.of_nat i) T lf Hs4 sks (layer_msg P sks seed M idx i)
         (set_ots_addr (set_tree_addr (set_layer_addr a (N.of_nat i)) T) lf) Hs1 Hmb Hml) as [a' [Hws Ha']].
      { split; [exact Hw|reflexivity]. }
      split.
      { unfold layer_sign. eapply runs_then; [apply w_wsign|lia|]. intros [sg a1] _. rstep. eapply runs_then; [apply w_treehash|lia|]. intros [] _. rstep. lia. }
      rewrite out_bind, ew_wsign, Hws, bind_ok. 
      assert (Hroom : ib + n + i * layer_bytes + layer_bytes <= sig_bytes p).
      { rewrite Hsb. assert (Datatypes.S i * layer_bytes <= p_d p * layer_bytes) by (apply Nat.mul_le_mono_r; lia). cbn [Nat.mul] in *. lia. }
      set (off := ib + n + i * layer_bytes) in *.
      destruct (cut s off) as (pre & z0 & Es & Hpre & Epre & _); [lia|].
      assert (Hz0l : length z0 = length s - off) by (rewrite Es, app_length; lia).
      destruct (cut z0 wsig) as (z1 & z2 & Ez & Hz1 & _); [unfold ProofCore.layer_bytes in Hroom; lia|].
      destruct (cut z2 (th * n)) as (z3 & z4 & Ez2 & Hz3 & _); [rewrite Ez, app_length in Hz0l; unfold ProofCore.layer_bytes in Hroom; lia|].
      subst z0 z2. rewrite Es.
      set (wsg := wots_sig P seed (N.of_nat i) T lf sks (layer_msg P sks seed M idx i)) in *.
      assert (Hwsg : length (concat wsg) = wsig).
      { rewrite (chunked_length n) by apply (wots_sig_chunked p Hf HH). unfold wsg.
        rewrite (wots_sig_length p Hf Hp), (po_wsig p Hp). reflexivity. }
      rewrite (wr_at _ pre z1 (z3 ++ z4)) by (reflexivity || lia). rewrite cbind_ok.
      rewrite app_assoc. replace (off + wsig) with (length (pre ++ concat wsg)) by (rewrite app_length; lia).
      destruct Ha' as [(Hw0 & Hw1 & Hw2 & Hw3) Hw4].
      rewrite out_bind, ew_treehash, (treehash_spec p Hf Hp HH sks seed (N.of_nat i) T Hs1 Hs4).
      2:{ apply leaf_of_lt. } 2:{ exact Hz3. } 2:{ split; [exact Hw0|split; [exact Hw1|exact Hw2]]. }
      rewrite bind_ok. eexists. split; [reflexivity|]. unfold Inv. cbv beta iota.
      set (au := auth_path P sks seed (N.of_nat i) T lf).
      assert (Haul : length (concat au) = th * n).
      { rewrite (chunked_length n) by apply auth_path_chunked. unfold au. now rewrite auth_path_length. }
      split.
      { unfold T, tree_of. rewrite (sp_th_of p Hf Hp). do 2 f_equal. lia. }
      split; [rewrite app_length; unfold ProofCore.layer_bytes in *; lia|]. split; [reflexivity|]. split; [exact Hw3|].
      rewrite !app_length, Haul. rewrite !app_length in Hz0l. lia.
  - lia.
  - intros zs l _ Hl [-> _]. repeat (destruct zs as [zs ?]). split; [|lia]. rstep. lia.
Qed.
Lemma sign_work sks prfk rt seed extra idx sm m smlen : length sks = n -> length prfk = n -> length rt = n -> length seed = n ->
  (idx + 1 < 2 ^ N.of_nat (full_height p))%N -> sig_bytes p + length m <= length sm ->
  let r := PRF P prfk (toByte idx 32) in
  let K := (2 + sumN (fun i => layer_sign p (layer_msg P sks seed (H_msg P r rt idx m) idx i)) 0 (p_d p))%N in
  runs (ref_xmssmt_core_sign_w p (sk_layout (toByte idx ib) sks prfk rt seed extra) sm smlen m) K (fun _ l => l = K).
Proof.
  intros Hs1 Hs2 Hs3 Hs4 Hidx Hsm. cbv zeta. pose proof (po_ib_le p Hp) as [Hib8 Hibh]. pose proof (pow2_lt_256 _ _ Hibh) as Hp256. pose proof (po_h64 p Hp) as Hh.
  unfold ref_xmssmt_core_sign_w. cbv zeta.
  destruct (wr_spec sm (sig_bytes p) m Hsm) as (sm1 & Hwr & Hl & Hf1 & Hf2 & Hsk & _). rewrite Hwr, cbind_ok.
  unfold sk_layout. rewrite (rd_at _ [] (toByte idx ib) (sks ++ prfk ++ rt ++ seed ++ extra)) by (rewrite ?toByte_length; reflexivity).
  rewrite cbind_ok, bytes_to_ull_spec by (rewrite ?toByte_length; auto using toByte_ok).
  rewrite cbind_ok, os2ip_toByte, N.mod_small by lia.
  unfold shl1_ull. destruct (Nat.ltb_spec (full_height p) 64) as [_|]; [|lia]. rewrite cbind_ok.
  destruct (N.leb_spec (2 ^ N.of_nat (full_height p) - 1) idx) as [?|_]; [lia|].
  apply (sign_body_work idx (toByte idx ib) sks prfk rt seed extra sm1 _ (length m) m (skipn (sig_bytes p + length m) sm));
    [apply toByte_length|exact Hs1|exact Hs2|exact Hs3|exact Hs4|rewrite skipn_length; lia| |reflexivity].
  rewrite <- (firstn_skipn (sig_bytes p + length m) sm1) at 1. rewrite Hf2, Hsk by lia.
  rewrite <- app_assoc. apply skipn_app_len. rewrite firstn_length. lia.
Qed.

(** verification of a signature made as the specification says *)
Lemma open_body_work sks prfk rt seed idx m msg pk : length sks = n -> length prfk = n -> length rt = n -> length seed = n ->
  (idx < 2 ^ N.of_nat (full_height p))%N -> 2 * n <= length pk -> firstn n pk = rt -> firstn n (skipn n pk) = seed ->
  sig_bytes p + length msg <= length m ->
  let r := PRF P prfk (toByte idx 32) in
  let K := (1 + sumN (fun i => layer_open p (layer_msg P sks seed (H_msg P r rt idx msg) idx i)) 0 (p_d p))%N in
  runs (xmssmt_core_sign_open_w p m (mt_sign P sks prfk rt seed idx msg ++ msg) pk) K (fun _ l => l = K).
Proof.
  intros Hs1 Hs2 Hs3 Hseed Hidx Hpk Ert Eseed Hm. cbv zeta. 
  pose proof (mt_sign_length p Hf Hp HH sks prfk rt seed idx msg) as Hsig.
  set (sig := mt_sign P sks prfk rt seed idx msg) in *.
  pose proof (po_th p Hp) as Hth. pose proof (po_pad p Hp) as Hpad. pose proof sig_bytes_eq as Hsb.
  pose proof (po_ib_le p Hp) as [Hib8 Hibh]. pose proof (pow2_lt_256 _ _ Hibh) as Hp256.
  set (r := PRF P prfk (toByte idx 32)). set (M := H_msg P r rt idx msg).
  assert (Hr : length r = n) by apply (PRF_length p Hf HH).
  set (ly := concat (map (layer_sig P sks seed M idx) (seq 0 (p_d p)))).
  assert (Esig : sig = toByte idx ib ++ r ++ ly).
  { unfold sig, mt_sign. cbv zeta. replace (sp_ib P) with ib by exact (po_ib p Hp). reflexivity. }
  assert (Hbl : length (toByte idx ib) = ib) by apply toByte_length.
  set (sm := sig ++ msg). assert (Hsml : length sm = sig_bytes p + length msg) by (unfold sm; rewrite app_length; lia).
  assert (Hmsg : skipn (sig_bytes p) sm = msg) by (unfold sm; apply skipn_app_len; lia).
  unfold xmssmt_core_sign_open_w. cbv zeta.
  rewrite rd_ok by lia. rewrite cbind_ok. cbn [skipn]. rewrite Ert.
  rewrite rd_ok by lia. rewrite cbind_ok. rewrite Eseed.
  rewrite (rd_at _ [] (toByte idx ib) (r ++ ly ++ msg)) by (unfold sm; rewrite ?Esig, <- ?app_assoc; reflexivity || lia). rewrite cbind_ok.
  rewrite bytes_to_ull_spec by (rewrite ?toByte_length; auto using toByte_ok). rewrite cbind_ok, os2ip_toByte, N.mod_small by lia.
  destruct (Nat.ltb_spec (length sm) (sig_bytes p)) as [?|_]; [lia|].
  replace (length sm - sig_bytes p) with (length msg) by lia.
  rewrite rd_ok by lia. rewrite cbind_ok, Hmsg, firstn_all.
  destruct (wr_spec m (sig_bytes p) msg) as (m1 & Hwr & Hm1l & Hm1f & Hm1f2 & Hm1s & Hm1k); [lia|].
  rewrite Hwr, cbind_ok.
  destruct (Nat.ltb_spec (sig_bytes p) (padding_len p + 3 * n)) as [?|_]; [lia|].
  assert (Hskm1 : skipn (sig_bytes p) m1 = msg ++ skipn (sig_bytes p + length msg) m).
  { rewrite <- (firstn_skipn (sig_bytes p + length msg) m1) at 1. rewrite Hm1f2, Hm1s by lia.
    rewrite <- app_assoc. apply skipn_app_len. rewrite firstn_length. lia. }
  destruct (hash_message_spec p Hf HH (fun _ => rd sm ib n) pk idx m1 (sig_bytes p - padding_len p - 3 * n) (length msg) r msg)
    as (m2 & Hhm & Hm2l & _).
  { intros _ _ _. apply (rd_at _ (toByte idx ib) r (ly ++ msg)); [unfold sm; rewrite Esig, <- !app_assoc; reflexivity|lia|lia]. }
  { lia. } { exact Hr. } { lia. } { lia. }
  { replace (sig_bytes p - padding_len p - 3 * n + padding_len p + 3 * n) with (sig_bytes p) by lia.
    rewrite Hskm1. symmetry. apply firstn_app_len. reflexivity. }
  rewrite Ert in Hhm. fold M in Hhm.
  apply (runs_know _ _ 1%N _ _ (M, m2)); [rewrite ew_hash_message; exact Hhm|apply w_hmsg|lia|].
  unfold shl1_int. destruct (Nat.ltb_spec th 31) as [_|]; [|lia]. rewrite cbind_ok.
  assert (HMl : length M = n) by apply (Hf_length p Hf HH). assert (HMb : bytes_ok M) by apply (Hf_bytes p Hf HH).
  set (Inv := fun (i : nat) '((rt', ix, off, oa, la, na) : bytes * N * nat * addr * addr * addr) =>
       ix = (idx / 2 ^ N.of_nat (th * i))%N /\ off = ib + n + i * layer_bytes /\
       rt' = layer_msg P sks seed M idx i /\ a3 oa = 0%N /\ a3 la = 1%N /\ a3 na = 2%N /\ a4 na = 0%N).
  eapply (runs_bind _ _ _ (fun _ => 0%N)).
  - apply (runs_for_know Inv (fun i => layer_open p (layer_msg P sks seed M idx i))).
    + unfold Inv. rewrite Nat.mul_0_r. change (2 ^ N.of_nat 0)%N with 1%N. rewrite N.div_1_r.
      split; [reflexivity|]. split; [lia|]. split; [reflexivity|]. repeat split.
    + intros i [[[[[rt' ix] off] oa] la] na] _ Hi (-> & -> & -> & Hoa & Hla & Hna & Hna4). cbv beta iota zeta.
      split.
      { unfold layer_open. rstep. eapply runs_then; [apply w_pkfs|lia|]. intros [wp a1] _. eapply runs_then; [apply w_lt|lia|]. intros [] _. eapply runs_then; [apply w_root|lia|]. intros [] _. rstep. lia. }
      rewrite idx_leaf, idx_step.
      destruct (layer_msg_ok sks seed M idx i HMl HMb) as [Hrl Hrb]. set (rt' := layer_msg P sks seed M idx i) in *.
      set (T := tree_of P idx i). set (lf := leaf_of P idx i).
      assert (Hroom : ib + n + i * layer_bytes + layer_bytes <= sig_bytes p).
      { rewrite Hsb. assert (Datatypes.S i * layer_bytes <= p_d p * layer_bytes) by (apply Nat.mul_le_mono_r; lia). cbn [Nat.mul] in *. lia. }
      set (off := ib + n + i * layer_bytes) in *.
      set (sg := skipn off sig) in *. assert (Hsgl : length sg = sig_bytes p - off) by (unfold sg; rewrite skipn_length; lia).
      assert (Esg : sg = concat (map (layer_sig P sks seed M idx) (seq i 1)) ++ concat (map (layer_sig P sks seed M idx) (seq (i + 1) (p_d p - i - 1)))).
      { unfold sg. rewrite Esig. rewrite app_assoc. unfold ly.
        replace (seq 0 (p_d p)) with (seq 0 i ++ seq i 1 ++ seq (i + 1) (p_d p - i - 1)) by (rewrite <- !seq_app; f_equal; lia).
        rewrite !map_app, !concat_app. rewrite app_assoc. apply skipn_app_len.
        rewrite !app_length, Hbl, Hr, (layers_length p Hf Hp HH). reflexivity. }
      pose proof (mt_climb_layers p Hf Hp HH sks seed M idx (concat (map (layer_sig P sks seed M idx) (seq (i + 1) (p_d p - i - 1)))) Hs1 Hseed 1 i) as Hcl.
      rewrite <- Esg in Hcl. cbn [mt_climb] in Hcl.
      set (ws := pieces P (wots_len p) sg). set (au := pieces P th (skipn (wots_len p * n) sg)).
      pose proof (po_wsig p Hp) as Hwl.
      assert (Hwsc : chunked n ws) by (apply (pieces_chunked P); cbn [sp_n sp_of]; unfold ProofCore.layer_bytes in Hroom; lia).
      assert (Hwsl : length ws = wots_len p) by apply pieces_length.
      assert (Hauc : chunked n au) by (apply (pieces_chunked P); cbn [sp_n sp_of]; rewrite skipn_length; unfold ProofCore.layer_bytes in Hroom; lia).
      assert (Haul : length au = th) by apply pieces_length.
      assert (Ews : concat ws = firstn wsig sg).
      { unfold ws. rewrite pieces_concat; cbn [sp_n sp_of]; [now rewrite Hwl|unfold ProofCore.layer_bytes in Hroom; lia]. }
      assert (Eau : concat au = firstn (th * n) (skipn wsig sg)).
      { unfold au. rewrite pieces_concat; cbn [sp_n sp_of]; [now rewrite Hwl|rewrite skipn_length; unfold ProofCore.layer_bytes in Hroom; lia]. }
      assert (Esm3 : sm = (firstn off sig ++ concat ws) ++ concat au ++ (skipn layer_bytes sg ++ msg)).
      { unfold sm. rewrite <- (firstn_skipn off sig) at 1. fold sg. rewrite <- !app_assoc. f_equal.
        rewrite Ews, Eau. rewrite <- (firstn_skipn wsig sg) at 1. rewrite <- !app_assoc. f_equal.
        rewrite <- (firstn_skipn (th * n) (skipn wsig sg)) at 1. rewrite <- !app_assoc. f_equal.
        rewrite skipn_skipn. f_equal. f_equal. unfold ProofCore.layer_bytes. lia. }
      assert (Hpl : length (firstn off sig) = off) by (rewrite firstn_length; lia).
      assert (Hwcl : length (concat ws) = wsig) by (rewrite (chunked_length n) by exact Hwsc; lia).
      assert (Hrd : rd sm off wsig = Ok (concat ws)).
      { apply (rd_at _ (firstn off sig) (concat ws) (concat au ++ skipn layer_bytes sg ++ msg)); [|lia|lia].
        rewrite Esm3 at 1. rewrite <- app_assoc. reflexivity. }
      rewrite Hrd, cbind_ok.
      destruct (wots_pk_from_sig_spec p Hf Hp HH seed (N.of_nat i) T lf Hseed ws rt'
         (set_ots_addr (set_tree_addr (set_layer_addr oa (N.of_nat i)) T) lf) Hwsc Hwsl Hrb Hrl) as [oa' [Hws (Hoa' & _)]].
      { split; [|reflexivity]. split; [reflexivity|]. split; [apply u32_shiftr_u64|]. split; [reflexivity|]. exact Hoa. }
      rewrite out_bind, ew_pkfs, Hws, bind_ok.
      destruct (l_tree_spec p Hf Hp HH seed (N.of_nat i) T lf (wots_pkFromSig P seed (N.of_nat i) T lf rt' ws)
         (set_ltree_addr (set_tree_addr (set_layer_addr la (N.of_nat i)) T) lf) Hseed) as (la' & h' & Hlt & (Hla' & _)).
      { apply wots_pkFromSig_chunked; assumption. }
      { apply (wots_pkFromSig_length p Hf Hp). }
      { split; [reflexivity|]. split; [apply u32_shiftr_u64|]. split; [reflexivity|]. exact Hla. }
      { reflexivity. }
      rewrite out_bind, ew_lt, Hlt, bind_ok.
      set (lfv := ltree P seed (N.of_nat i) T lf (sp_len P) 0 (wots_pkFromSig P seed (N.of_nat i) T lf rt' ws)) in *.
      assert (Hlfl : length lfv = n).
      { unfold lfv. apply (ltree_length p Hf HH); [apply wots_pkFromSig_chunked; assumption|].
        rewrite (wots_pkFromSig_length p Hf Hp). pose proof (len_pos p Hp). rewrite (po_len p Hp). lia. }
      replace (off + wsig) with (length (firstn off sig ++ concat ws)) by (rewrite app_length; lia).
      destruct (compute_root_spec p Hf Hp HH seed (N.of_nat i) T lfv lf au (firstn off sig ++ concat ws) (skipn layer_bytes sg ++ msg)
         (set_tree_addr (set_layer_addr na (N.of_nat i)) T) Hseed Hlfl Hauc Haul) as (na' & Hcr & (Hna' & Hna4')).
      { split; [|exact Hna4]. split; [reflexivity|]. split; [apply u32_shiftr_u64|]. split; [reflexivity|]. exact Hna. }
      rewrite <- Esm3 in Hcr. rewrite out_bind, ew_root, Hcr, bind_ok. eexists. split; [reflexivity|]. unfold Inv. cbv beta iota.
      split.
      { unfold T, tree_of. rewrite (sp_th_of p Hf Hp). do 2 f_equal. lia. }
      split; [rewrite app_length; unfold ProofCore.layer_bytes in *; lia|].
      split; [|split; [apply Hoa'|split; [apply Hla'|split; [apply Hna'|exact Hna4']]]].
      rewrite <- (Nat.add_1_r i), <- Hcl.
      rewrite (sp_len_of p Hf Hp), (sp_th_of p Hf Hp). cbn [sp_n sp_of]. fold rt' T lf ws au.
      unfold rootFromSig. unfold lfv. rewrite (sp_len_of p Hf Hp). reflexivity.
  - lia.
  - intros zs l _ Hl [-> _]. repeat (destruct zs as [zs ?]). split; [|lia]. repeat rstep; lia.
Qed.
End Refine.
