(** A second small environment: every application of F or of the node hash moves the first
    byte on by 16, with one exception (see [hb]); everything else is zero.  Used to show that
    the signature the fast core makes at index 2^20 of the sets 40/8 and 60/12 is refused. *)
From Verif Require Import Base Lib SpecRfc SpecParams ProofUtils ProofToy.

Definition w (b : N) : bytes := b :: repeat 0%N 31.
Definition hb (l r : N) : N := if (l =? 96)%N && (r =? 80)%N then 96%N else ((l + 16) mod 256)%N.
Definition step256 (x : bytes) : bytes :=
  match nth 31 x 0%N with
  | 0%N => w ((nth 64 x 0 + 16) mod 256)%N
  | 1%N => w (hb (nth 64 x 0%N) (nth 96 x 0%N))
  | _ => repeat 0%N 32
  end.
Definition step_env : Env := {| sha256 := step256; sha512 := fun _ => repeat 0%N 64; junk := fun _ => 0%N |}.
Lemma w_length b : length (w b) = 32. Proof. reflexivity. Qed.
Lemma w_ok b : (b < 256)%N -> bytes_ok (w b).
Proof. intros Hb. constructor; [exact Hb|apply zeros_ok]. Qed.
Lemma hb_lt l r : (hb l r < 256)%N.
Proof. unfold hb. destruct (_ && _); [reflexivity|now apply N.mod_lt]. Qed.
Lemma step_env_ok : env_ok step_env.
Proof.
  intros x. cbn [step_env sha256 sha512]. split; [|split; [apply repeat_length|apply zeros_ok]].
  assert (Hz : length (repeat 0%N 32) = 32 /\ bytes_ok (repeat 0%N 32)) by (split; [apply repeat_length|apply zeros_ok]).
  unfold step256. destruct (nth 31 x 0%N) as [|q]; [split; [reflexivity|apply w_ok; now apply N.mod_lt]|].
  destruct q as [q|q|]; [exact Hz|exact Hz|split; [reflexivity|apply w_ok, hb_lt]].
Qed.

(** the same computations on the first bytes *)
Fixpoint lvl (l : list N) : list N := match l with a :: b :: t => hb a b :: lvl t | t => t end.
Fixpoint lt (k : nat) (l : list N) : N :=
  match k with O => hd 0%N l | S k' => if length l <=? 1 then hd 0%N l else lt k' (lvl l) end.
Fixpoint cl (v i : N) (a : list N) : N :=
  match a with [] => v | x :: t => cl (if N.even i then hb v x else hb x v) (i / 2)%N t end.
Fixpoint nd (k : nat) : N := match k with O => lt 67 (repeat 240%N 67) | S k' => hb (nd k') (nd k') end.

Section Step.
Variable r : row.
Hypothesis Hfn : r_fn r = SHA2.
Hypothesis Hn : r_n r = 32.
Local Existing Instance step_env.
Notation P := (@row_sp step_env r).
Notation z := (repeat 0%N 32).

Lemma s_hash x : sp_hash P x = step256 x.
Proof.
  cbn [row_sp sp_hash]. unfold row_hash, hash_of. rewrite Hfn, Hn. cbn [Nat.eqb]. apply firstn_all2.
  pose proof (proj1 (proj1 (step_env_ok x))) as Hl. cbn [step_env sha256] in Hl |- *. rewrite Hl. apply le_n.
Qed.
Lemma s_pad : sp_pad P = 32. Proof. cbn [row_sp sp_pad]. now rewrite Hn. Qed.
Lemma s_n : sp_n P = 32. Proof. exact Hn. Qed.
Lemma s_len : sp_len P = 67. Proof. unfold sp_len, sp_len2, sp_len1, sp_w. rewrite s_n. reflexivity. Qed.
Lemma s_PRF k m : PRF P k m = z.
Proof. unfold PRF. rewrite s_hash, s_pad. unfold step256. now rewrite (proj1 (role r Hn 3 _ ltac:(lia))). Qed.
Lemma s_Hmsg a b c m : H_msg P a b c m = w 0.
Proof. unfold H_msg. rewrite s_hash, s_pad. unfold step256. now rewrite (proj1 (role r Hn 2 _ ltac:(lia))). Qed.
Lemma s_keygen k m : PRF_keygen P k m = w 0.
Proof. unfold PRF_keygen. rewrite s_hash, s_pad. unfold step256. now rewrite (proj1 (role r Hn 4 _ ltac:(lia))). Qed.
Lemma nth_skip {A} a b (l : list A) x : nth (a + b) l x = nth b (skipn a l) x.
Proof. rewrite <- (firstn_skipn a l) at 1. destruct (Nat.le_gt_cases a (length l)) as [H|H].
  - rewrite app_nth2; rewrite firstn_length, Nat.min_l by lia; [f_equal; lia|lia].
  - rewrite !nth_overflow; [reflexivity| |]; rewrite ?app_length, ?firstn_length, skipn_length; lia.
Qed.
Lemma s_F k m : length k = 32 -> F P k m = w ((nth 0 m 0 + 16) mod 256)%N.
Proof.
  intros Hl. unfold F. rewrite s_hash, s_pad. unfold step256. destruct (role r Hn 0 (k ++ m) ltac:(lia)) as [H1 H2].
  rewrite H1. change 64 with (32 + 32). rewrite (nth_skip 32 32), H2. rewrite app_nth2, Hl, Nat.sub_diag by lia. reflexivity.
Qed.
Lemma s_RAND s A l v : length l = 32 -> length v = 32 -> RAND_HASH P s A l v = w (hb (nth 0 l 0%N) (nth 0 v 0%N)).
Proof.
  intros Hl Hv. unfold RAND_HASH. rewrite !s_PRF, !xor_zero by assumption. unfold H. rewrite s_hash, s_pad. unfold step256.
  destruct (role r Hn 1 (z ++ l ++ v) ltac:(lia)) as [H1 H2]. rewrite H1.
  change 96 with (32 + (32 + 32)). change 64 with (32 + (32 + 0)). rewrite !(nth_skip 32), H2.
  assert (Hs : forall (a b : bytes), length a = 32 -> skipn 32 (a ++ b) = b).
  { intros a b Ha. rewrite skipn_app, Ha, (skipn_all2 a) by lia. reflexivity. }
  rewrite (Hs z) by apply repeat_length. rewrite (app_nth1 l v 0%N (n := 0)) by lia. rewrite (app_nth2 l v 0%N (n := 32)), Hl, Nat.sub_diag by lia. reflexivity.
Qed.
Lemma s_chain seed L T o b c i s : (b < 256)%N -> chain P seed L T o (w b) c i s = w ((b + 16 * N.of_nat s) mod 256)%N.
Proof.
  intros Hb. induction s as [|s IH].
  - cbn [chain]. change (N.of_nat 0) with 0%N. rewrite N.mul_0_r, N.add_0_r, N.mod_small by exact Hb. reflexivity.
  - cbn [chain]. rewrite IH, !s_PRF, xor_zero by reflexivity. rewrite s_F by reflexivity. cbn [w nth]. f_equal.
    rewrite N.add_mod_idemp_l by discriminate. f_equal. lia.
Qed.
Lemma s_pk seed L T o sks : wots_pk P seed L T o sks = map w (repeat 240%N 67).
Proof.
  unfold wots_pk. rewrite (map_const _ (w 240)), seq_length, s_len; [reflexivity|].
  intros c _. unfold wots_sk. rewrite s_keygen, s_chain by reflexivity. reflexivity.
Qed.
Definition sigb (m : N) (c : nat) : N := ((16 * N.of_nat (nth c (wots_digits P (w m)) 0%nat)) mod 256)%N.
Lemma s_sig seed L T o sks m : wots_sig P seed L T o sks (w m) = map (fun c => w (sigb m c)) (seq 0 67).
Proof. unfold wots_sig. rewrite s_len. apply map_ext. intros c. unfold wots_sk. rewrite s_keygen, s_chain by reflexivity. reflexivity. Qed.
Definition pkb (b m : N) : list N :=
  map (fun c => (sigb m c + 16 * N.of_nat (15 - nth c (wots_digits P (w b)) 0%nat)) mod 256)%N (seq 0 67).
Lemma nth_map_seq' {A} (f : nat -> A) k c x : c < k -> nth c (map f (seq 0 k)) x = f c.
Proof. intros Hc. rewrite (nth_indep _ x (f 0)) by (now rewrite map_length, seq_length). rewrite map_nth, seq_nth by exact Hc. reflexivity. Qed.
Lemma s_pkFromSig seed L T o b m : wots_pkFromSig P seed L T o (w b) (map (fun c => w (sigb m c)) (seq 0 67)) = map w (pkb b m).
Proof.
  unfold wots_pkFromSig, pkb. rewrite s_len, map_map. apply map_ext_in. intros c Hc. apply in_seq in Hc. cbv zeta.
  rewrite nth_map_seq' by lia. rewrite s_chain by (now apply N.mod_lt). reflexivity.
Qed.
Lemma s_level seed L T o h : forall l i, ltree_level P seed L T o h i (map w l) = map w (lvl l).
Proof.
  intros l. remember (length l) as k eqn:Ek. revert l Ek. induction k as [k IH] using lt_wf_ind. intros [|a [|b l]] Ek i; [reflexivity|reflexivity|].
  cbn [map ltree_level lvl]. rewrite s_RAND by reflexivity. cbn [w nth]. f_equal. apply (IH (length l)); [cbn in Ek; lia|reflexivity].
Qed.
Lemma s_ltree seed L T o : forall k h l, l <> [] -> ltree P seed L T o k h (map w l) = w (lt k l).
Proof.
  induction k as [|k IH]; intros h l Hl.
  - destruct l; [congruence|reflexivity].
  - cbn [ltree lt]. rewrite map_length. destruct (length l <=? 1) eqn:El; [destruct l; [congruence|reflexivity]|].
    rewrite s_level. apply IH. destruct l as [|a [|b l]]; cbn in El |- *; discriminate.
Qed.
Lemma s_node sks seed L T : forall k i, node P sks seed L T k i = w (nd k).
Proof.
  induction k as [|k IH]; intros i.
  - cbn [node nd]. unfold leaf. rewrite s_pk, s_len. apply s_ltree. discriminate.
  - cbn [node nd]. rewrite !IH. now rewrite s_RAND by reflexivity.
Qed.
Lemma s_climb seed L T : forall a v j i, Forall (fun x => length x = 32) a -> climb P seed L T (w v) j i a = w (cl v i (map (fun x => nth 0 x 0%N) a)).
Proof.
  induction a as [|x a IH]; intros v j i Ha; [reflexivity|]. apply Forall_cons_iff in Ha as [Hx Ha].
  cbn [climb map cl]. destruct (N.even i); rewrite s_RAND by (reflexivity || exact Hx); cbn [w nth]; apply IH, Ha.
Qed.
Definition rfs (b m i : N) (a : list N) : N := cl (lt 67 (pkb b m)) i a.
Lemma s_root seed L T i b m a : Forall (fun x => length x = 32) a ->
  rootFromSig P seed L T i (w b) (map (fun c => w (sigb m c)) (seq 0 67)) a = w (rfs b m i (map (fun x => nth 0 x 0%N) a)).
Proof. intros Ha. unfold rootFromSig. rewrite s_pkFromSig, s_len, s_ltree by (unfold pkb; discriminate). now apply s_climb. Qed.

Lemma s_pieces : forall k l x, length l = k -> Forall (fun y => length y = 32) l -> pieces P k (concat l ++ x) = l.
Proof.
  induction k as [|k IH]; intros [|y l] x Hl Ha; try discriminate; [reflexivity|]. apply Forall_cons_iff in Ha as [Hy Ha]. cbn [concat pieces]. rewrite s_n, <- app_assoc.
  rewrite firstn_app, Hy, Nat.sub_diag, firstn_all2 by lia. rewrite skipn_app, Hy, Nat.sub_diag, (skipn_all2 y) by lia. cbn [firstn skipn app].
  rewrite app_nil_r, IH; auto.
Qed.
Lemma concat32 (l : list bytes) : Forall (fun y => length y = 32) l -> length (concat l) = length l * 32.
Proof. induction 1 as [|y l Hy _ IH]; [reflexivity|]. cbn [concat length]. rewrite app_length, IH, Hy. reflexivity. Qed.

(** all layers: [mb i] is the first byte of what layer i signs, [au i] its authentication path *)
Variables (mb : nat -> N) (au : nat -> list bytes).
Hypothesis Hau : forall i, length (au i) = sp_th P /\ Forall (fun x => length x = 32) (au i).
Definition lay (i : nat) : bytes := concat (map (fun c => w (sigb (mb i) c)) (seq 0 67)) ++ concat (au i).
Fixpoint run (b : N) (J : N) (k cnt : nat) : N :=
  match cnt with O => b | S c => run (rfs b (mb k) (leaf_of P J k) (map (fun x => nth 0 x 0%N) (au k))) J (S k) c end.
Lemma s_mt_climb seed J : forall cnt b k x, mt_climb P seed J (w b) k cnt (concat (map lay (seq k cnt)) ++ x) = w (run b J k cnt).
Proof.
  induction cnt as [|cnt IH]; intros b k x; [reflexivity|]. cbn [seq map concat mt_climb run]. destruct (Hau k) as [L1 L2].
  assert (Hs : Forall (fun y => length y = 32) (map (fun c => w (sigb (mb k) c)) (seq 0 67))).
  { apply Forall_forall. intros y Hy. apply in_map_iff in Hy as (c & <- & _). reflexivity. }
  assert (Ls : length (map (fun c => w (sigb (mb k) c)) (seq 0 67)) = 67) by (now rewrite map_length, seq_length).
  unfold lay at 1 3 5. rewrite s_len, s_n, <- !app_assoc.
  rewrite (s_pieces 67) by assumption.
  rewrite (skipn_app (67 * 32)), (skipn_all2 (concat _)) by (rewrite concat32, Ls by exact Hs; lia).
  rewrite concat32, Ls, Nat.sub_diag by exact Hs. cbn [skipn app].
  rewrite s_pieces by assumption. rewrite s_root by exact L2.
  rewrite (app_assoc (concat _) (concat (au k))). rewrite skipn_app, (skipn_all2 (_ ++ _)) by (rewrite app_length, !concat32, Ls, L1 by assumption; lia).
  rewrite app_length, !concat32, Ls, L1 by assumption. replace ((67 + sp_th P) * 32 - (67 * 32 + sp_th P * 32)) with 0 by lia. cbn [skipn app].
  apply IH.
Qed.

(** the same with all parameters in place *)
Definition P0 : sparams := mkSp 32 4 32 0 1 (fun x => x).
Definition pkb0 (b m : N) : list N :=
  let db := wots_digits P0 (w b) in let dm := wots_digits P0 (w m) in
  map (fun c => ((16 * N.of_nat (nth c dm 0%nat)) mod 256 + 16 * N.of_nat (15 - nth c db 0%nat)) mod 256)%N (seq 0 67).
Fixpoint run0 (mb0 : nat -> N) (ab : nat -> list N) (b J : N) (k cnt : nat) : N :=
  match cnt with O => b | S c => run0 mb0 ab (cl (lt 67 (pkb0 b (mb0 k))) (J / 2 ^ N.of_nat (5 * k) mod 2 ^ 5)%N (ab k)) J (S k) c end.
Lemma s_digits b : wots_digits P (w b) = wots_digits P0 (w b).
Proof. unfold wots_digits, csum_spec, sp_len2, sp_len1, sp_w. rewrite s_n. reflexivity. Qed.
Lemma run_run0 J : sp_th P = 5 -> forall cnt b k, run b J k cnt = run0 mb (fun k => map (fun x => nth 0 x 0%N) (au k)) b J k cnt.
Proof.
  intros Ht. induction cnt as [|cnt IH]; intros b k; [reflexivity|]. cbn [run run0]. rewrite IH. f_equal. unfold rfs, leaf_of. rewrite Ht. f_equal. f_equal.
  unfold pkb, pkb0, sigb. cbv zeta. now rewrite !s_digits.
Qed.
End Step.

Definition mb_bad (i : nat) : N := if i =? 0 then 0%N else if i =? 4 then 160%N else 176%N.
Definition ab_bad (g : N) (i : nat) : list N := if i =? 3 then map nd (seq 0 4) ++ [g] else map nd (seq 0 5).
Lemma run_8 g : run0 mb_bad (ab_bad g) 0 (2 ^ 20) 0 8 = 192%N.
Proof. vm_compute. reflexivity. Qed.
Lemma run_12 g : run0 mb_bad (ab_bad g) 0 (2 ^ 20) 0 12 = 192%N.
Proof. vm_compute. reflexivity. Qed.
Lemma nd_5 : nd 5 = 176%N.
Proof. vm_compute. reflexivity. Qed.
Lemma nd_4 : nd 4 = 160%N.
Proof. vm_compute. reflexivity. Qed.
