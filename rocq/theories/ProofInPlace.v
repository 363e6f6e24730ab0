(** Sign and open with message and signed message in one buffer. *)
From Verif Require Import Base Lib ModelUtils ModelParams ModelHash ModelWots ModelCommons ModelCore ModelCoreFast ModelXmss ModelInPlace SpecRfc SpecParams SpecApi
  SpecComp SpecFast SpecSec SpecForge SpecInPlace ProofUtils ProofHash ProofWots ProofCommons ProofCore ProofParams ProofApi ProofHistory ProofMain ProofFast1 ProofFast2 ProofFast3 ProofAny.

Ltac both H := let x := fresh "v" in let E := fresh "E" in apply bind_inv in H; destruct H as (x & E & H); rewrite E, bind_ok.

Section Core.
Context {E : Env}.
Variable p : xmss_params.


Lemma memcpy_apart buf dst src len : apart dst src len -> src + len <= length buf -> 0 < len ->
  memcpy_in buf dst src len = wr buf dst (firstn len (skipn src buf)).
Proof.
  intros Ha Hl H0. unfold memcpy_in. rewrite rd_ok by exact Hl. rewrite bind_ok.
  destruct (Nat.eqb_spec dst src); [destruct Ha; lia|].
  destruct (Nat.ltb_spec dst (src + len)), (Nat.ltb_spec src (dst + len)); cbn [andb]; try reflexivity. destruct Ha; lia.
Qed.
Lemma memcpy_nil buf dst src : src <= length buf -> dst <= length buf -> memcpy_in buf dst src 0 = wr buf dst [].
Proof.
  intros Hs Hd. unfold memcpy_in. rewrite rd_ok by lia. rewrite bind_ok. cbn [firstn].
  assert (Hw : wr buf dst [] = Ok buf). { unfold wr. cbn [length app]. destruct (Nat.leb_spec (dst + 0) (length buf)); [|lia]. rewrite Nat.add_0_r, firstn_skipn. reflexivity. }
  rewrite Hw. destruct (dst =? src); [reflexivity|]. destruct (Nat.ltb_spec dst (src + 0)), (Nat.ltb_spec src (dst + 0)); cbn [andb]; try reflexivity. lia.
Qed.

Lemma ref_in_eq sk sm smlen om m : memcpy_in sm (sig_bytes p) om (length m) = wr sm (sig_bytes p) m ->
  ref_xmssmt_core_sign_in p sk sm smlen om (length m) = ref_xmssmt_core_sign p sk sm smlen m.
Proof. intros He. unfold ref_xmssmt_core_sign_in, ref_xmssmt_core_sign. rewrite He. reflexivity. Qed.

(** the second copy *)
Definition again (om : nat) (m : bytes) (o : sign_out) (res_in : res sign_out) : Prop :=
  exists smk q, wr smk q m = Ok (so_sm o) /\ so_smlen o = q + length m /\ so_rc o = 0%Z /\
    res_in = (let* s := memcpy_in smk q om (length m) in Ok (mkSign 0 (so_sk o) s (so_smlen o))).

Lemma body_in idx sk ss ws sm om m o : memcpy_in sm (sig_bytes p) om (length m) = wr sm (sig_bytes p) m ->
  fast_sign_body p idx sk ss ws sm m = Ok o -> again om m o (fast_sign_body_in p idx sk ss ws sm om (length m)).
Proof.
  intros He H0. unfold fast_sign_body in H0. unfold fast_sign_body_in. cbv zeta in H0 |- *.
  do 6 both H0. rewrite He. do 2 both H0. destruct (_ <? _); [discriminate|].
  both H0. destruct v7 as (mh & sm2). do 2 both H0. both H0. destruct v9 as (sg & oa). do 5 both H0.
  apply bind_inv in H0. destruct H0 as (sm7 & W7 & H0).
  apply bind_inv in H0. destruct H0 as (s7 & S7 & H0). apply bind_inv in H0. destruct H0 as (k7 & K7 & H0).
  injection H0 as <-. eexists _, _. split; [exact W7|]. split; [reflexivity|]. split; [reflexivity|]. cbn [so_sk so_smlen].
  clear He. destruct (memcpy_in _ _ _ _); cbn [bind]; [|reflexivity|reflexivity]. rewrite S7, bind_ok, K7, bind_ok. reflexivity.
Qed.
Lemma mt_body_in idx sk ss ws sm om m o : memcpy_in sm (sig_bytes p) om (length m) = wr sm (sig_bytes p) m ->
  fast_mt_sign_body p idx sk ss ws sm m = Ok o -> again om m o (fast_mt_sign_body_in p idx sk ss ws sm om (length m)).
Proof.
  intros He H0. unfold fast_mt_sign_body in H0. unfold fast_mt_sign_body_in. cbv zeta in H0 |- *.
  do 5 both H0. rewrite He. do 2 both H0. destruct (_ <? _); [discriminate|].
  both H0. destruct v6 as (mh & sm2). do 4 both H0. both H0. destruct v10 as (sg & oa). do 4 both H0. both H0. destruct v14 as (sm7 & off). do 3 both H0.
  apply bind_inv in H0. destruct H0 as (sm8 & W7 & H0).
  apply bind_inv in H0. destruct H0 as (k7 & K7 & H0).
  injection H0 as <-. eexists _, _. split; [exact W7|]. split; [reflexivity|]. split; [reflexivity|]. cbn [so_sk so_smlen].
  clear He. destruct (memcpy_in _ _ _ _); cbn [bind]; [|reflexivity|reflexivity]. rewrite K7, bind_ok. reflexivity.
Qed.
Lemma fast_in (mt : bool) sk sm smlen om m o : memcpy_in sm (sig_bytes p) om (length m) = wr sm (sig_bytes p) m ->
  (if mt then fast_xmssmt_core_sign else fast_xmss_core_sign) p sk sm smlen m = Ok o -> so_rc o = 0%Z ->
  again om m o ((if mt then fast_xmssmt_core_sign_in else fast_xmss_core_sign_in) p sk sm smlen om (length m)).
Proof.
  intros He H0 Hrc. destruct mt; [unfold fast_xmssmt_core_sign in H0; unfold fast_xmssmt_core_sign_in|unfold fast_xmss_core_sign in H0; unfold fast_xmss_core_sign_in];
    cbv zeta in H0 |- *; both H0; destruct v as (ss & ws); do 3 both H0; destruct (_ <=? _)%N.
  1,3: do 2 both H0; destruct (_ <? _)%N; [injection H0 as <-; discriminate|]; destruct (_ && _); [injection H0 as <-; discriminate|];
    both H0; destruct v4 as (zs & ws').
  all: first [apply mt_body_in; assumption|apply body_in; assumption].
Qed.
(** the result when the message lies where the signature goes *)
Lemma again_over sg om m o x : again om m o x -> so_smlen o = sg + length m -> om + length m <= sg ->
  x = Ok (mkSign 0 (so_sk o) (firstn sg (so_sm o) ++ firstn (length m) (skipn om (so_sm o)) ++ skipn (sg + length m) (so_sm o)) (so_smlen o)).
Proof.
  intros (smk & q & Hw & Hl & _ & ->) Hs Ho. assert (q = sg) by lia. subst q.
  pose proof (wr_length _ _ _ _ Hw) as Lw. destruct (wr_inv _ _ _ _ Hw) as [Lk Ek].
  assert (Hm : memcpy_in smk sg om (length m) = wr smk sg (firstn (length m) (skipn om smk))).
  { destruct m as [|x m]; [apply memcpy_nil; cbn [length] in *; lia|]. apply memcpy_apart; [right; exact Ho|cbn [length] in *; lia|cbn [length]; lia]. }
  rewrite Hm. rewrite <- (wr_slice _ _ _ _ om (length m) Hw) by lia.
  assert (Lf : length (firstn (length m) (skipn om (so_sm o))) = length m) by (rewrite firstn_length, skipn_length; lia).
  unfold wr. rewrite Lf. destruct (Nat.leb_spec (sg + length m) (length smk)); [|lia]. cbn [bind]. do 2 f_equal.
  rewrite (wr_before _ _ _ _ sg Hw) by lia. do 2 f_equal.
  rewrite Ek. replace (firstn sg smk ++ m ++ skipn (sg + length m) smk) with ((firstn sg smk ++ m) ++ skipn (sg + length m) smk) by (now rewrite app_assoc).
  symmetry. apply skipn_app_len. rewrite app_length, firstn_length. lia.
Qed.
End Core.

Section Open.
Context {E : Env}.
Variable p : xmss_params.
Variable Hf : bytes -> bytes.
Hypothesis Hp : params_ok p.
Hypothesis HH : hash_total p Hf.
Notation P := (sp_of p Hf).
Notation n := (p_n p).
Notation ib := (index_bytes p).

(** what hash_message leaves in its buffer *)
Lemma hash_message_buf R root idx buf off mlen r h b' :
  (forall b, length b = length buf -> firstn off b = firstn off buf -> R b = Ok r) -> length r = n -> n <= length root ->
  hash_message p R root idx buf off mlen = Ok (h, b') ->
  b' = firstn off buf ++ toByte 2 (padding_len p) ++ r ++ firstn n root ++ toByte idx n ++ skipn (off + padding_len p + 3 * n) buf.
Proof.
  unfold hash_message. intros HR Lr Lroot H0. apply bind_inv in H0. destruct H0 as (b1 & W1 & H0).
  rewrite HR in H0; [|exact (wr_length _ _ _ _ W1)|apply (wr_before _ _ _ _ _ W1); lia]. rewrite bind_ok in H0.
  apply bind_inv in H0. destruct H0 as (b2 & W2 & H0). apply bind_inv in H0. destruct H0 as (rt & Ert & H0). apply bind_inv in H0. destruct H0 as (b3 & W3 & H0).
  apply bind_inv in H0. destruct H0 as (b4 & W4 & H0). apply bind_inv in H0. destruct H0 as (u & _ & H0). apply bind_inv in H0. destruct H0 as (u' & _ & H0). injection H0 as _ <-.
  assert (Lrt : length (firstn n root) = n) by (rewrite firstn_length; lia).
  rewrite !ull_to_bytes_spec in *. change XMSS_HASH_PADDING_HASH with 2%N in W1.
  assert (Ert' : rt = firstn n root). { unfold rd in Ert. destruct (_ <=? _); [|discriminate]. cbn [skipn] in Ert. congruence. }
  subst rt. clear Ert.
  destruct (wr_inv _ _ _ _ W1) as [L1 X1]. destruct (wr_inv _ _ _ _ W2) as [L2 X2]. destruct (wr_inv _ _ _ _ W3) as [L3 X3]. destruct (wr_inv _ _ _ _ W4) as [L4 X4].
  pose proof (wr_length _ _ _ _ W1) as M1. pose proof (wr_length _ _ _ _ W2) as M2. pose proof (wr_length _ _ _ _ W3) as M3.
  rewrite !toByte_length, ?Lr, ?Lrt in *.
  set (A := firstn off buf) in *. set (T := toByte 2 (padding_len p)) in *. set (Q := firstn n root) in *. set (I := toByte idx n) in *.
  assert (LA : length A = off) by (unfold A; rewrite firstn_length; lia). assert (LT : length T = padding_len p) by apply toByte_length.
  assert (F2 : firstn (off + padding_len p) b1 = A ++ T). { rewrite X1, app_assoc. apply firstn_app_len. rewrite app_length. lia. }
  assert (F3 : firstn (off + padding_len p + n) b2 = A ++ T ++ r). { rewrite X2, F2, app_assoc, <- (app_assoc A T r). apply firstn_app_len. rewrite !app_length. lia. }
  assert (F4 : firstn (off + padding_len p + 2 * n) b3 = A ++ T ++ r ++ Q).
  { rewrite X3, F3, app_assoc. rewrite <- !app_assoc. rewrite (app_assoc r Q), (app_assoc T (r ++ Q)), (app_assoc A). apply firstn_app_len. rewrite !app_length. lia. }
  rewrite X4, F4. rewrite <- !app_assoc. do 5 f_equal.
  assert (S1 : forall k b b' o d, wr b o d = Ok b' -> o + length d <= k -> skipn k b' = skipn k b).
  { intros k bb bb' o d Hw Hk. pose proof (wr_length _ _ _ _ Hw) as Lw. pose proof (wr_after _ _ _ _ k (length bb) Hw Hk) as Ha. rewrite !firstn_all2 in Ha by (rewrite skipn_length; lia). exact Ha. }
  replace (off + padding_len p + 2 * n + n) with (off + padding_len p + 3 * n) by lia.
  rewrite (S1 _ _ _ _ _ W3) by lia. rewrite (S1 _ _ _ _ _ W2) by lia. apply (S1 _ _ _ _ _ W1). rewrite LT. lia.
Qed.

Variables (sm pk : bytes).
Hypothesis Hsm : sig_bytes p <= length sm.
Hypothesis Hbs : bytes_ok (firstn ib sm).
Hypothesis Hpk : 2 * n <= length pk.
Notation off := (sig_bytes p - padding_len p - 3 * n).
(** the signed message after the prefix of the message hash is written *)
Definition clobbered : bytes :=
  firstn off sm ++ toByte 2 (padding_len p) ++ firstn n (skipn ib sm) ++ firstn n pk ++ toByte (os2ip (firstn ib sm)) n ++ skipn (sig_bytes p) sm.
Lemma clob_len : length clobbered = length sm.
Proof. pose proof (po_pad p Hp). unfold clobbered. rewrite !app_length, !toByte_length, !firstn_length, !skipn_length. lia. Qed.
Lemma clob_front k : k <= off -> firstn k clobbered = firstn k sm.
Proof.
  intros Hk. unfold clobbered. rewrite firstn_app, firstn_firstn, Nat.min_l, firstn_length by lia.
  replace (k - Nat.min off (length sm)) with 0 by lia. cbn [firstn]. apply app_nil_r.
Qed.
Lemma clob_slice j k : j + k <= off -> firstn k (skipn j clobbered) = firstn k (skipn j sm).
Proof. intros Hk. rewrite !firstn_skipn_comm. f_equal. now apply clob_front. Qed.
Lemma clob_back : skipn (sig_bytes p) clobbered = skipn (sig_bytes p) sm.
Proof.
  pose proof (po_pad p Hp). unfold clobbered. rewrite !app_assoc. apply skipn_app_len. rewrite !app_length, !toByte_length, !firstn_length, skipn_length. lia.
Qed.

Lemma open_in_rejects mbuf oo : xmssmt_core_sign_open p mbuf clobbered pk = Ok oo -> oo_rc oo <> 0%Z ->
  let mlen := length sm - sig_bytes p in
  xmssmt_core_sign_open_in p sm (length sm) pk = Ok (mkOpen (-1) (repeat 0%N mlen ++ skipn mlen clobbered) 0).
Proof.
  intros H0 Hrc mlen. pose proof (po_pad p Hp) as Hpad. pose proof (po_ib_le p Hp) as [Hib8 _].
  pose proof clob_len as Lc. pose proof (clob_front ib ltac:(lia)) as Cf. pose proof (clob_slice ib n ltac:(lia)) as Cs. pose proof clob_back as Cb.
  set (sm' := clobbered) in *. unfold xmssmt_core_sign_open in H0. unfold xmssmt_core_sign_open_in. cbv zeta in H0 |- *.
  both H0. both H0. rewrite rd_ok in H0 |- * by lia. rewrite bind_ok in H0. rewrite bind_ok. cbn [skipn] in H0 |- *. rewrite Cf in H0. both H0.
  rename v1 into idx. assert (Ei : idx = os2ip (firstn ib sm)). { rewrite bytes_to_ull_spec in E2; [congruence|rewrite firstn_length; lia|exact Hbs]. }
  rewrite Lc in H0. destruct (Nat.ltb_spec (length sm) (sig_bytes p)); [lia|].
  assert (Emc : memcpy_in sm (sig_bytes p) (sig_bytes p) (length sm - sig_bytes p) = Ok sm). { unfold memcpy_in. rewrite rd_ok by lia. rewrite bind_ok, Nat.eqb_refl. reflexivity. }
  rewrite Emc, bind_ok. clear Emc. apply bind_inv in H0. destruct H0 as (msg & Emsg & H0). apply bind_inv in H0. destruct H0 as (m1 & W1 & H0).
  destruct (Nat.ltb_spec (sig_bytes p) (padding_len p + 3 * n)); [lia|].
  apply bind_inv in H0. destruct H0 as ((mh & m2) & Hh & H0).
  assert (Lmsg : length msg = mlen /\ msg = skipn (sig_bytes p) sm).
  { rewrite rd_ok in Emsg by lia. injection Emsg as <-. rewrite Cb, firstn_all2 by (rewrite skipn_length; lia). split; [rewrite skipn_length; lia|reflexivity]. }
  destruct Lmsg as [Lmsg Mmsg].
  set (r := firstn n (skipn ib sm)). assert (Lr : length r = n) by (unfold r; rewrite firstn_length, skipn_length; lia).
  assert (HR1 : rd sm' ib n = Ok r). { rewrite rd_ok by lia. f_equal. exact Cs. }
  destruct (wr_inv _ _ _ _ W1) as [Lw1 _]. pose proof (wr_length _ _ _ _ W1) as Lm1.
  destruct (hash_message_spec p Hf HH (fun _ => rd sm' ib n) pk idx m1 off mlen r msg) as (m2' & Hh' & _).
  { intros _ _ _. exact HR1. } { lia. } { exact Lr. } { lia. } { lia. }
  { replace (off + padding_len p + 3 * n) with (sig_bytes p) by lia. rewrite <- Lmsg. symmetry. apply (wr_at _ _ _ _ W1). }
  assert (HR2 : forall b, length b = length sm -> firstn off b = firstn off sm -> rd b ib n = Ok r).
  { intros b Lb Fb. rewrite rd_ok by lia. unfold r. rewrite !firstn_skipn_comm. do 2 f_equal.
    rewrite <- (Nat.min_l (ib + n) off) by lia. rewrite <- !firstn_firstn. now rewrite Fb. }
  destruct (hash_message_spec p Hf HH (fun b => rd b ib n) pk idx sm off mlen r msg) as (b2 & Hb2 & _).
  { intros b Lb Fb. rewrite rd_ok by lia. unfold r. rewrite !firstn_skipn_comm. do 2 f_equal. exact Fb. } { lia. } { exact Lr. } { lia. } { lia. }
  { replace (off + padding_len p + 3 * n) with (sig_bytes p) by lia. rewrite Mmsg at 1. symmetry. apply firstn_all2. rewrite skipn_length. lia. }
  pose proof (hash_message_buf _ pk idx sm off mlen r _ b2 HR2 Lr ltac:(lia) Hb2) as Eb2.
  replace (off + padding_len p + 3 * n) with (sig_bytes p) in Eb2 by lia.
  assert (Eb : b2 = sm') by (rewrite Eb2, Ei; reflexivity). rewrite Eb in Hb2. clear Eb2 Eb.
  fold mlen. rewrite Hb2, bind_ok. fold mlen in Hh. assert (Emh : mh = H_msg P r (firstn n pk) idx msg) by congruence. subst mh.
  both H0. apply bind_inv in H0. destruct H0 as ([[[[[root ix] o'] x1] x2] x3] & Ef & H0). rewrite Ef, bind_ok. cbv beta iota.
  destruct (list_eq_dec N.eq_dec root v).
  - inv1 H0. inv1 H0. injection H0 as <-. now elim Hrc.
  - unfold wr. rewrite repeat_length. fold mlen. destruct (Nat.leb_spec (0 + mlen) (length sm')); [|lia]. reflexivity.
Qed.
End Open.
