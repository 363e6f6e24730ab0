(** Histories of sign calls on one key, reference core. *)
From Verif Require Import Base Lib ModelUtils ModelParams ModelHash ModelWots ModelCommons ModelCore ModelXmss
  SpecRfc SpecParams SpecApi ProofUtils ProofHash ProofWots ProofCommons ProofTree ProofCore ProofParams ProofApi.

Section Run.
Context {E : Env}.
(** lifting a one-call invariant to histories *)
Lemma run_inv mt c (Inv : N -> bytes -> Prop) (okc : call -> Prop) (Out : N -> call -> sign_out -> Prop) :
  (forall k sk x, Inv k sk -> okc x -> exists o, sign mt c sk (c_sm x) (c_smlen x) (c_m x) = Ok o /\ Out k x o /\ Inv (k + 1)%N (so_sk o)) ->
  forall cs k sk, Inv k sk -> Forall okc cs ->
  exists sk' os, sign_run mt c sk cs = Ok (sk', os) /\ length os = length cs /\ Inv (k + N.of_nat (length cs))%N sk' /\
    forall i x, nth_error cs i = Some x -> exists o, nth_error os i = Some o /\ Out (k + N.of_nat i)%N x o.
Proof.
  intros Hstep. induction cs as [|x cs IH]; intros k sk HI Hok.
  - exists sk, []. rewrite N.add_0_r. split; [reflexivity|]. split; [reflexivity|]. split; [exact HI|]. intros [|i] x Hx; discriminate.
  - inversion Hok as [|? ? Hx Hok']; subst. destruct (Hstep k sk x HI Hx) as [o [Ho [HO HI']]].
    destruct (IH (k + 1)%N (so_sk o) HI' Hok') as [sk' [os [H1 [H2 [H3 H4]]]]].
    exists sk', (o :: os). cbn [sign_run]. rewrite Ho, bind_ok, H1, bind_ok. split; [reflexivity|].
    split; [cbn; now rewrite H2|]. split.
    + cbn [length]. replace (k + N.of_nat (S (length cs)))%N with (k + 1 + N.of_nat (length cs))%N by lia. exact H3.
    + intros [|i] y Hy.
      * injection Hy as <-. exists o. rewrite N.add_0_r. auto.
      * destruct (H4 i y Hy) as [o' [Hn' HO']]. exists o'. split; [exact Hn'|].
        replace (k + N.of_nat (S i))%N with (k + 1 + N.of_nat i)%N by lia. exact HO'.
Qed.
End Run.

Section Row.
Context {E : Env}.
Hypothesis HE : env_ok E.
Variable (mt : bool) (r : row).
Hypothesis Hr : In r (rows mt).
Notation P := (row_sp r).
Notation n := (r_n r).
Notation ib := (idx_size r).

Definition fields (a b c d : bytes) : Prop :=
  (length a = n /\ length b = n /\ length c = n /\ length d = n) /\ (bytes_ok a /\ bytes_ok b /\ bytes_ok c /\ bytes_ok d).

Lemma secret_key_ok i a b c d : fields a b c d -> key_of r (sk_size r) (secret_key r i a b c d).
Proof.
  intros [[La [Lb [Lc Ld]]] [Ba [Bb [Bc Bd]]]]. unfold key_of, secret_key, sk_size. split; [|split].
  - rewrite !app_length, !toByte_length. lia.
  - apply firstn_app_len. now rewrite toByte_length.
  - rewrite !bytes_ok_app. repeat split; try apply toByte_ok; assumption.
Qed.
Lemma secret_key_index i a b c d : sk_index r (secret_key r i a b c d) = (i mod 256 ^ N.of_nat ib)%N.
Proof.
  unfold sk_index, secret_key. rewrite skipn_app_len, firstn_app_len by (now rewrite toByte_length). apply os2ip_toByte.
Qed.
Lemma secret_key_fields i a b c d : fields a b c d ->
  sk_field r 0 (secret_key r i a b c d) = a /\ sk_field r 1 (secret_key r i a b c d) = b /\
  sk_field r 2 (secret_key r i a b c d) = c /\ sk_field r 3 (secret_key r i a b c d) = d.
Proof.
  intros [[La [Lb [Lc Ld]]] _]. unfold sk_field, secret_key.
  set (o := toByte (r_oid r) 4). set (x := toByte i ib).
  assert (Lo : length o = 4) by apply toByte_length. assert (Lx : length x = ib) by apply toByte_length.
  assert (F : forall (pre f post : bytes) k, k = length pre -> length f = n -> firstn n (skipn k (pre ++ f ++ post)) = f).
  { intros pre f post k Hk Hf. rewrite skipn_app_len by exact Hk. now rewrite firstn_app_len. }
  split; [|split; [|split]].
  - replace (o ++ x ++ a ++ b ++ c ++ d) with ((o ++ x) ++ a ++ (b ++ c ++ d)) by now rewrite <- !app_assoc. apply F; rewrite ?app_length; lia.
  - replace (o ++ x ++ a ++ b ++ c ++ d) with ((o ++ x ++ a) ++ b ++ (c ++ d)) by now rewrite <- !app_assoc. apply F; rewrite ?app_length; lia.
  - replace (o ++ x ++ a ++ b ++ c ++ d) with ((o ++ x ++ a ++ b) ++ c ++ d) by now rewrite <- !app_assoc. apply F; rewrite ?app_length; lia.
  - replace (o ++ x ++ a ++ b ++ c ++ d) with ((o ++ x ++ a ++ b ++ c) ++ d ++ []) by (rewrite app_nil_r; now rewrite <- !app_assoc). apply F; rewrite ?app_length; lia.
Qed.
Lemma zero_fields : fields (repeat 0%N n) (repeat 0%N n) (repeat 0%N n) (repeat 0%N n).
Proof.
  assert (Hz : bytes_ok (repeat 0%N n)) by (apply Forall_forall; intros x Hx; apply repeat_spec in Hx; subst; reflexivity).
  split; repeat split; try apply repeat_length; exact Hz.
Qed.
Lemma pow_h_le : (2 ^ N.of_nat (r_h r) <= 256 ^ N.of_nat ib)%N.
Proof. apply pow2_lt_256, (idx_size_le mt r Hr). Qed.

(** one call *)
Lemma step_live i a b c d x : fields a b c d -> (i + 1 < 2 ^ N.of_nat (r_h r))%N -> call_ok r x ->
  sign mt ref_core (secret_key r i a b c d) (c_sm x) (c_smlen x) (c_m x) =
  Ok (mkSign 0 (secret_key r (i + 1) a b c d)
       (mt_sign P a b c d i (c_m x) ++ c_m x ++ skipn (sig_size r + length (c_m x)) (c_sm x)) (sig_size r + length (c_m x))).
Proof.
  intros Hf Hi Hx. pose proof (secret_key_index i a b c d) as Hidx. pose proof pow_h_le.
  rewrite N.mod_small in Hidx by lia. destruct (secret_key_fields i a b c d Hf) as [F0 [F1 [F2 F3]]].
  rewrite (sign_row HE mt r Hr _ (secret_key_ok i a b c d Hf)) by (rewrite ?Hidx; assumption).
  now rewrite Hidx, F0, F1, F2, F3.
Qed.
Lemma step_last i a b c d x : fields a b c d -> (i + 1 = 2 ^ N.of_nat (r_h r))%N -> call_ok r x ->
  exists sg, length sg = sig_size r - ib /\
  sign mt ref_core (secret_key r i a b c d) (c_sm x) (c_smlen x) (c_m x) =
  Ok (mkSign 0 (secret_key r (2 ^ N.of_nat (r_h r)) (repeat 0%N n) (repeat 0%N n) (repeat 0%N n) (repeat 0%N n))
       ((repeat 255%N ib ++ sg) ++ c_m x ++ skipn (sig_size r + length (c_m x)) (c_sm x)) (sig_size r + length (c_m x))).
Proof.
  intros Hf Hi Hx. pose proof (secret_key_index i a b c d) as Hidx. pose proof pow_h_le.
  rewrite N.mod_small in Hidx by lia.
  rewrite (sign_last_row HE mt r Hr _ (secret_key_ok i a b c d Hf)) by (rewrite ?Hidx; assumption).
  match goal with |- context [mkSign 0 _ (repeat 255%N ib ++ ?R ++ ?C ++ _) _] => exists (R ++ C) end.
  split; [|rewrite <- !app_assoc; reflexivity].
  rewrite app_length. pose proof (p_ok mt r Hr) as Hp. pose proof (p_hash HE mt r Hr) as HH.
  rewrite <- (sp_of_row r (sk_ref r)), (PRF_length _ _ HH).
  rewrite <- (row_dd r (sk_ref r)), (layers_length _ _ Hp HH).
  rewrite <- (p_sig r), <- (p_ib r), (sig_bytes_eq _ Hp). lia.
Qed.
Lemma step_dead i x : (2 ^ N.of_nat (r_h r) <= i < 256 ^ N.of_nat ib)%N -> call_ok r x ->
  let z := repeat 0%N n in
  sign mt ref_core (secret_key r i z z z z) (c_sm x) (c_smlen x) (c_m x) =
  Ok (mkSign (-2) (secret_key r (256 ^ N.of_nat ib - 1) z z z z)
       (firstn (sig_size r) (c_sm x) ++ c_m x ++ skipn (sig_size r + length (c_m x)) (c_sm x)) (sig_size r + length (c_m x))).
Proof.
  intros Hi Hx z. pose proof (secret_key_index i z z z z) as Hidx.
  rewrite N.mod_small in Hidx by lia.
  rewrite (sign_exhausted_row mt r Hr _ (secret_key_ok i z z z z zero_fields)) by (rewrite ?Hidx; lia || assumption).
  unfold secret_key. do 5 f_equal.
  rewrite <- (toByte_os2ip (repeat 255%N ib)) by (apply Forall_forall; intros y Hy; apply repeat_spec in Hy; subst; reflexivity).
  rewrite repeat_length. f_equal. clear. generalize ib as k. induction k as [|k IH]; [reflexivity|].
  cbn [repeat]. rewrite os2ip_cons, IH, repeat_length, pow256_S. pose proof (pow256_pos (N.of_nat k)). lia.
Qed.

(** ** Whole histories *)
Section Life.
Variables a b c d : bytes.
Hypothesis Hf : fields a b c d.
Notation z := (repeat 0%N n).
Notation lim := (2 ^ N.of_nat (r_h r))%N.
Notation top := (256 ^ N.of_nat ib)%N.

(** the whole life of a key whose index field is wider than the tree is high *)
Definition life_inv (k : N) (sk : bytes) : Prop :=
  ((k < lim)%N /\ sk = secret_key r k a b c d) \/
  ((lim <= k)%N /\ exists i, (lim <= i < top)%N /\ sk = secret_key r i z z z z).
Definition life_out (k : N) (x : call) (o : sign_out) : Prop :=
  so_smlen o = sig_size r + length (c_m x) /\
  ((k + 1 < lim)%N -> so_rc o = 0%Z /\
     so_sm o = mt_sign P a b c d k (c_m x) ++ c_m x ++ skipn (sig_size r + length (c_m x)) (c_sm x)) /\
  ((k + 1 = lim)%N -> so_rc o = 0%Z /\ exists sg, length sg = sig_size r - ib /\
     so_sm o = (repeat 255%N ib ++ sg) ++ c_m x ++ skipn (sig_size r + length (c_m x)) (c_sm x)) /\
  ((lim <= k)%N -> so_rc o = (-2)%Z).
Lemma life_step : r_h r < 8 * ib -> forall k sk x, life_inv k sk -> call_ok r x ->
  exists o, sign mt ref_core sk (c_sm x) (c_smlen x) (c_m x) = Ok o /\ life_out k x o /\ life_inv (k + 1) (so_sk o).
Proof.
  intros Hw k sk x HI Hx.
  assert (Hlt : (lim < top)%N) by (rewrite pow256_pow2; apply N.pow_lt_mono_r; lia).
  assert (Hl0 : lim <> 0%N) by (apply N.pow_nonzero; discriminate).
  destruct HI as [[Hk ->]|[Hk [i [Hi ->]]]].
  - destruct (N.ltb_spec (k + 1) lim) as [Hlt1|Hge].
    + rewrite step_live by assumption. eexists. split; [reflexivity|]. split.
      * repeat split; cbn; intros; try reflexivity; lia.
      * left. split; [lia|reflexivity].
    + destruct (step_last k a b c d x Hf ltac:(lia) Hx) as [sg [Hsg ->]]. eexists. split; [reflexivity|]. split.
      * split; [reflexivity|]. split; [lia|]. split; [|lia]. intros _. split; [reflexivity|]. exists sg. auto.
      * right. split; [lia|]. exists lim. split; [lia|reflexivity].
  - rewrite step_dead by assumption. eexists. split; [reflexivity|]. split.
    + split; [reflexivity|]. split; [lia|]. split; [lia|]. reflexivity.
    + right. split; [lia|]. exists (top - 1)%N. split; [lia|reflexivity].
Qed.

(** a key whose index field is exactly as wide as the tree is high never runs out *)
Definition wrap_inv (k : N) (sk : bytes) : Prop :=
  exists a' b' c' d', fields a' b' c' d' /\ sk = secret_key r (k mod lim) a' b' c' d'.
Definition wrap_out (k : N) (x : call) (o : sign_out) : Prop :=
  so_rc o = 0%Z /\ so_smlen o = sig_size r + length (c_m x) /\
  ((k mod lim + 1 < lim)%N -> firstn ib (so_sm o) = toByte (k mod lim) ib).
Lemma mt_sign_index i m rest : firstn ib (mt_sign P a b c d i m ++ rest) = toByte i ib.
Proof. unfold mt_sign. rewrite <- !app_assoc. apply firstn_app_len. now rewrite toByte_length. Qed.
End Life.

Lemma mod_succ k m : (m <> 0 -> (k + 1) mod m = if k mod m + 1 =? m then 0 else k mod m + 1)%N.
Proof.
  intros Hm. pose proof (N.mod_lt k m Hm) as Hlt. rewrite (N.div_mod k m Hm) at 1.
  destruct (N.eqb_spec (k mod m + 1) m) as [He|Hne].
  - replace (m * (k / m) + k mod m + 1)%N with (0 + (k / m + 1) * m)%N by nia. rewrite N.mod_add by exact Hm. apply N.mod_0_l. exact Hm.
  - replace (m * (k / m) + k mod m + 1)%N with ((k mod m + 1) + (k / m) * m)%N by nia. rewrite N.mod_add by exact Hm. apply N.mod_small. lia.
Qed.

Lemma wrap_step : r_h r = 8 * ib -> forall k sk x, wrap_inv k sk -> call_ok r x ->
  exists o, sign mt ref_core sk (c_sm x) (c_smlen x) (c_m x) = Ok o /\ wrap_out k x o /\ wrap_inv (k + 1) (so_sk o).
Proof.
  intros Hw k sk x [a [b [c [d [Hf ->]]]]] Hx.
  assert (Hlt : (2 ^ N.of_nat (r_h r) = 256 ^ N.of_nat ib)%N) by (rewrite pow256_pow2, Hw; f_equal; lia).
  assert (Hl0 : (2 ^ N.of_nat (r_h r) <> 0)%N) by (apply N.pow_nonzero; discriminate).
  pose proof (N.mod_lt k _ Hl0) as Hk. pose proof (mod_succ k _ Hl0) as Hs. unfold wrap_inv, wrap_out. rewrite Hs.
  set (lim := (2 ^ N.of_nat (r_h r))%N) in *. set (i := (k mod lim)%N) in *.
  destruct (N.eqb_spec (i + 1) lim) as [He|Hne].
  - destruct (step_last i a b c d x Hf He Hx) as [sg [Hsg ->]]. eexists. split; [reflexivity|]. split.
    + split; [reflexivity|]. split; [reflexivity|]. lia.
    + exists (repeat 0%N n), (repeat 0%N n), (repeat 0%N n), (repeat 0%N n). split; [apply zero_fields|]. cbn [so_sk].
      unfold secret_key. do 2 f_equal. fold lim. rewrite Hlt. rewrite <- (toByte_mod (256 ^ N.of_nat ib) ib ib) by lia.
      rewrite N.mod_same by (apply N.pow_nonzero; discriminate). reflexivity.
  - rewrite step_live by (try assumption; unfold lim in *; lia). eexists. split; [reflexivity|]. split.
    + split; [reflexivity|]. split; [reflexivity|]. intros _. cbn [so_sm]. apply mt_sign_index.
    + exists a, b, c, d. split; [exact Hf|reflexivity].
Qed.
End Row.
