(** A small concrete environment, used as a witness: hypotheses of the property theorems are
    met in it, and refutations are evaluated in it.  Its "SHA-256" looks at the domain
    separator (byte 31 of its argument) and projects: F returns its second argument, H the
    second node, PRF_keygen its key, PRF and H_msg return zeros. *)
From Verif Require Import Base Lib SpecRfc SpecParams ProofUtils.

Definition fix32 (l : bytes) : bytes := firstn 32 (map u8 l ++ repeat 0%N 32).
Definition toy256 (x : bytes) : bytes :=
  match nth 31 x 0%N with
  | 0%N => fix32 (skipn 64 x)
  | 1%N => fix32 (skipn 96 x)
  | 4%N => fix32 (skipn 32 x)
  | _ => repeat 0%N 32
  end.
Definition toy_env (j : nat -> N) : Env := {| sha256 := toy256; sha512 := fun _ => repeat 0%N 64; junk := j |}.

Lemma zeros_ok k : bytes_ok (repeat 0%N k).
Proof. apply Forall_forall. intros x Hx. apply repeat_spec in Hx. subst. reflexivity. Qed.
Lemma fix32_ok l : length (fix32 l) = 32 /\ bytes_ok (fix32 l).
Proof.
  unfold fix32. split.
  - rewrite firstn_length, app_length, repeat_length. lia.
  - apply bytes_ok_firstn, bytes_ok_app. split; [|apply zeros_ok].
    apply Forall_forall. intros x Hx. apply in_map_iff in Hx. destruct Hx as [y [<- _]]. apply N.mod_lt. discriminate.
Qed.
Lemma fix32_id l : length l = 32 -> bytes_ok l -> fix32 l = l.
Proof.
  intros Hl Hb. unfold fix32. assert (Hm : map u8 l = l).
  { rewrite <- (map_id l) at 2. apply map_ext_in. intros x Hx. apply N.mod_small. exact (proj1 (Forall_forall _ _) Hb x Hx). }
  rewrite Hm, firstn_app, Hl, Nat.sub_diag, firstn_all2 by lia. apply app_nil_r.
Qed.
Lemma fix32_app l t : length l = 32 -> bytes_ok l -> fix32 (l ++ t) = l.
Proof.
  intros Hl Hb. unfold fix32. assert (Hm : map u8 l = l).
  { rewrite <- (map_id l) at 2. apply map_ext_in. intros x Hx. apply N.mod_small. exact (proj1 (Forall_forall _ _) Hb x Hx). }
  rewrite map_app, Hm, <- app_assoc, firstn_app, Hl, Nat.sub_diag, firstn_all2 by lia. apply app_nil_r.
Qed.
Lemma toy_env_ok j : env_ok (toy_env j).
Proof.
  intros x. cbn [toy_env sha256 sha512]. split; [|split; [apply repeat_length|apply zeros_ok]].
  assert (Hz : length (repeat 0%N 32) = 32 /\ bytes_ok (repeat 0%N 32)) by (split; [apply repeat_length|apply zeros_ok]).
  unfold toy256. destruct (nth 31 x 0%N) as [|q]; [apply fix32_ok|].
  destruct q as [q|q|]; [exact Hz| |apply fix32_ok]. destruct q as [q|q|]; [exact Hz| |exact Hz]. destruct q as [q|q|]; [exact Hz|exact Hz|apply fix32_ok].
Qed.

Section Toy.
Variable (j : nat -> N) (r : row).
Hypothesis Hfn : r_fn r = SHA2.
Hypothesis Hn : r_n r = 32.
Local Existing Instance toy_env.
Notation E := (toy_env j).
Notation P := (@row_sp (toy_env j) r).
Notation z := (repeat 0%N 32).

Lemma hash_P x : sp_hash P x = toy256 x.
Proof.
  cbn [row_sp sp_hash]. unfold row_hash, hash_of. rewrite Hfn, Hn. cbn [Nat.eqb]. apply firstn_all2.
  pose proof (proj1 (proj1 (toy_env_ok j x))) as Hl. cbn [toy_env sha256] in Hl |- *. rewrite Hl. apply le_n.
Qed.
Lemma pad_P : sp_pad P = 32.
Proof. cbn [row_sp sp_pad]. now rewrite Hn. Qed.
Lemma n_P : sp_n P = 32.
Proof. exact Hn. Qed.

Lemma role k x : (k < 256)%N -> nth 31 (toByte k 32 ++ x) 0%N = k /\ skipn 32 (toByte k 32 ++ x) = x.
Proof.
  intros Hk. split.
  - rewrite app_nth1 by (rewrite toByte_length; lia). unfold toByte. rewrite nth_map_seq by lia. cbn [Nat.add Nat.sub].
    change (256 ^ N.of_nat 0)%N with 1%N. rewrite N.div_1_r. now apply N.mod_small.
  - rewrite skipn_app, toByte_length, Nat.sub_diag. rewrite skipn_all2 by (rewrite toByte_length; lia). reflexivity.
Qed.
Lemma skipn_plus {A} a b (l : list A) : skipn (a + b) l = skipn b (skipn a l).
Proof. rewrite skipn_skipn. f_equal. lia. Qed.

Lemma toy_PRF k m : PRF P k m = z.
Proof. unfold PRF. rewrite hash_P, pad_P. unfold toy256. now rewrite (proj1 (role 3 _ ltac:(lia))). Qed.
Lemma toy_Hmsg a b c m : H_msg P a b c m = z.
Proof. unfold H_msg. rewrite hash_P, pad_P. unfold toy256. now rewrite (proj1 (role 2 _ ltac:(lia))). Qed.
Lemma toy_keygen k m : length k = 32 -> bytes_ok k -> PRF_keygen P k m = k.
Proof.
  intros Hl Hb. unfold PRF_keygen. rewrite hash_P, pad_P. unfold toy256. destruct (role 4 (k ++ m) ltac:(lia)) as [H1 H2].
  rewrite H1, H2. now apply fix32_app.
Qed.
Lemma toy_F k m : length k = 32 -> length m = 32 -> bytes_ok m -> F P k m = m.
Proof.
  intros Hl Hm Hb. unfold F. rewrite hash_P, pad_P. unfold toy256. destruct (role 0 (k ++ m) ltac:(lia)) as [H1 H2].
  rewrite H1. change 64 with (32 + 32). rewrite (skipn_plus 32 32), H2, skipn_app, Hl, Nat.sub_diag, (skipn_all2 k) by lia. now apply fix32_id.
Qed.
Lemma xor_zero v : length v = 32 -> xorb_spec v z = v.
Proof.
  intros Hl. unfold xorb_spec. change 32 with (length v) || rewrite <- Hl. clear Hl. induction v as [|x v IH]; [reflexivity|].
  cbn [length repeat combine map fst snd]. now rewrite N.lxor_0_r, IH.
Qed.
Lemma toy_RAND s A l v : length l = 32 -> length v = 32 -> bytes_ok v -> RAND_HASH P s A l v = v.
Proof.
  intros Hl Hv Hb. unfold RAND_HASH. rewrite !toy_PRF, !xor_zero by assumption. unfold H. rewrite hash_P, pad_P. unfold toy256.
  destruct (role 1 (z ++ l ++ v) ltac:(lia)) as [H1 H2]. rewrite H1.
  change 96 with (32 + (32 + 32)). rewrite (skipn_plus 32 (32 + 32)), H2, (skipn_plus 32 32).
  assert (Hs : forall (a b : bytes), length a = 32 -> skipn 32 (a ++ b) = b).
  { intros a b Ha. rewrite skipn_app, Ha, (skipn_all2 a) by lia. reflexivity. }
  rewrite (Hs z) by apply repeat_length. rewrite (Hs l) by exact Hl. now apply fix32_id.
Qed.

Section Const.
Variables (v seed : bytes).
Hypothesis Hv : length v = 32.
Hypothesis Bv : bytes_ok v.
Lemma toy_chain L T o c i s : chain P seed L T o v c i s = v.
Proof.
  induction s as [|s IH]; [reflexivity|]. cbn [chain]. rewrite IH, !toy_PRF, xor_zero by exact Hv.
  apply toy_F; [reflexivity|exact Hv|exact Bv].
Qed.
Lemma map_const {A B} (f : A -> B) y l : (forall x, In x l -> f x = y) -> map f l = repeat y (length l).
Proof. induction l as [|x l IH]; intros Hx; [reflexivity|]. cbn. rewrite Hx by (left; reflexivity). f_equal. apply IH. intros; apply Hx; now right. Qed.
Lemma toy_wots_pk L T o : wots_pk P seed L T o v = repeat v (sp_len P).
Proof.
  unfold wots_pk. rewrite (map_const _ v), seq_length; [reflexivity|]. intros c _. unfold wots_sk. rewrite toy_keygen by assumption. apply toy_chain.
Qed.
Lemma toy_wots_sig L T o M : wots_sig P seed L T o v M = repeat v (sp_len P).
Proof.
  unfold wots_sig. rewrite (map_const _ v), seq_length; [reflexivity|]. intros c _. unfold wots_sk. rewrite toy_keygen by assumption. apply toy_chain.
Qed.
Lemma toy_pkFromSig L T o M : wots_pkFromSig P seed L T o M (repeat v (sp_len P)) = repeat v (sp_len P).
Proof.
  unfold wots_pkFromSig. rewrite (map_const _ v), seq_length; [reflexivity|]. intros c Hc. apply in_seq in Hc.
  rewrite (nth_indep _ [] v) by (rewrite repeat_length; lia). rewrite nth_repeat. apply toy_chain.
Qed.
Lemma toy_level L T o h : forall k i, ltree_level P seed L T o h i (repeat v k) = repeat v ((k + 1) / 2).
Proof.
  intros k. induction k as [k IH] using lt_wf_ind. intros i. destruct k as [|[|k]]; [reflexivity|reflexivity|].
  cbn [repeat ltree_level]. rewrite toy_RAND by assumption. rewrite IH by lia.
  replace ((S (S k) + 1) / 2) with (S ((k + 1) / 2)) by lia. reflexivity.
Qed.
Lemma toy_ltree L T o f : forall h k, 1 <= k -> ltree P seed L T o f h (repeat v k) = v.
Proof.
  induction f as [|f IH]; intros h k Hk.
  - destruct k; [lia|reflexivity].
  - cbn [ltree]. destruct (length (repeat v k) <=? 1) eqn:El.
    + destruct k; [lia|reflexivity].
    + rewrite toy_level. apply IH. rewrite repeat_length in El. lia.
Qed.
Lemma len_P_pos : 1 <= sp_len P.
Proof. unfold sp_len, sp_len2. rewrite Nat.add_assoc, Nat.add_1_r. apply le_n_S, Nat.le_0_l. Qed.
Lemma toy_leaf L T i : leaf P v seed L T i = v.
Proof. unfold leaf. rewrite toy_wots_pk. apply toy_ltree, len_P_pos. Qed.
Lemma toy_node L T l : forall i, node P v seed L T l i = v.
Proof. induction l as [|l IH]; intros i; cbn [node]; [apply toy_leaf|]. rewrite !IH. now apply toy_RAND. Qed.
Lemma toy_root : mt_root P v seed = v.
Proof. apply toy_node. Qed.
Lemma toy_auth L T i : auth_path P v seed L T i = repeat v (sp_th P).
Proof. unfold auth_path. rewrite (map_const _ v), seq_length; [reflexivity|]. intros; apply toy_node. Qed.
Lemma toy_climb L T k : forall l i, climb P seed L T v l i (repeat v k) = v.
Proof. induction k as [|k IH]; intros l i; [reflexivity|]. cbn [repeat climb]. rewrite toy_RAND by assumption. destruct (N.even i); apply IH. Qed.
Lemma toy_rootFromSig L T i M : rootFromSig P seed L T i M (repeat v (sp_len P)) (repeat v (sp_th P)) = v.
Proof. unfold rootFromSig. rewrite toy_pkFromSig, toy_ltree by apply len_P_pos. apply toy_climb. Qed.
Lemma toy_pieces k : forall x, pieces P k (concat (repeat v k) ++ x) = repeat v k.
Proof.
  induction k as [|k IH]; intros x; [reflexivity|]. cbn [repeat concat pieces]. rewrite n_P, <- app_assoc.
  rewrite firstn_app, Hv, Nat.sub_diag, firstn_all2 by lia. rewrite skipn_app, Hv, Nat.sub_diag, (skipn_all2 v) by lia. cbn [firstn skipn app]. now rewrite app_nil_r, IH.
Qed.
Lemma concat_repeat_length k : length (concat (repeat v k)) = k * 32.
Proof. induction k as [|k IH]; [reflexivity|]. cbn [repeat concat]. rewrite app_length, IH, Hv. reflexivity. Qed.
Lemma toy_layer M idx k : layer_sig P v seed M idx k = concat (repeat v (sp_len P + sp_th P)).
Proof. unfold layer_sig. rewrite toy_wots_sig, toy_auth, repeat_app, concat_app. reflexivity. Qed.
Lemma concat_repeat_mul k c : concat (repeat (concat (repeat v k)) c) = concat (repeat v (c * k)).
Proof. induction c as [|c IH]; [reflexivity|]. cbn [repeat concat Nat.mul]. now rewrite IH, repeat_app, concat_app. Qed.
Lemma toy_layers M idx : concat (map (layer_sig P v seed M idx) (seq 0 (sp_d P))) = concat (repeat v (sp_d P * (sp_len P + sp_th P))).
Proof.
  rewrite (map_const _ (concat (repeat v (sp_len P + sp_th P)))), seq_length by (intros; apply toy_layer). apply concat_repeat_mul.
Qed.
Lemma toy_mt_climb idx cnt : forall M k, 1 <= cnt -> mt_climb P seed idx M k cnt (concat (repeat v (cnt * (sp_len P + sp_th P)))) = v.
Proof.
  induction cnt as [|cnt IH]; intros M k Hc; [lia|]. cbn [mt_climb].
  replace (S cnt * (sp_len P + sp_th P)) with (sp_len P + (sp_th P + cnt * (sp_len P + sp_th P))) by lia.
  rewrite !repeat_app, !concat_app. rewrite n_P.
  rewrite (skipn_app (sp_len P * 32)), concat_repeat_length, Nat.sub_diag, (skipn_all2 (concat (repeat v (sp_len P)))) by (rewrite concat_repeat_length; lia).
  cbn [app skipn]. rewrite !toy_pieces, toy_rootFromSig.
  rewrite app_assoc, skipn_app. rewrite skipn_all2 by (rewrite app_length, !concat_repeat_length; lia).
  rewrite app_length, !concat_repeat_length. replace ((sp_len P + sp_th P) * 32 - (sp_len P * 32 + sp_th P * 32)) with 0 by lia. cbn [app skipn].
  destruct cnt as [|cnt]; [reflexivity|]. apply IH. lia.
Qed.
End Const.
End Toy.
