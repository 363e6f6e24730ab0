(** General lemmas: result monad, buffers, chunked buffers, loops. *)
From Verif Require Import Base.
Ltac Zify.zify_post_hook ::= Z.div_mod_to_equations.

(** ** The result monad *)
Lemma bind_ok {A B} (a : A) (f : A -> res B) : bind (Ok a) f = f a.
Proof. reflexivity. Qed.

Lemma bind_inv {A B} (x : res A) (f : A -> res B) b :
  bind x f = Ok b -> exists a, x = Ok a /\ f a = Ok b.
Proof. destruct x; simpl; intros Hb; try discriminate; eauto. Qed.

(** ** Loops *)
Lemma forN_S {S} k i (body : nat -> S -> res S) s :
  forN (Datatypes.S k) i body s = bind (body i s) (fun s' => forN k (Datatypes.S i) body s').
Proof. reflexivity. Qed.

Lemma forN_inv {S} (P : nat -> S -> Prop) k : forall i body s,
  (forall j t, i <= j < i + k -> P j t -> exists t', body j t = Ok t' /\ P (Datatypes.S j) t') ->
  P i s -> exists t, forN k i body s = Ok t /\ P (i + k) t.
Proof.
  induction k as [|k IH]; intros i body s Hb Hs.
  - exists s. rewrite Nat.add_0_r. auto.
  - destruct (Hb i s) as [t [Ht Pt]]; [lia|assumption|].
    rewrite forN_S, Ht, bind_ok.
    destruct (IH (Datatypes.S i) body t) as [u [Hu Pu]].
    + intros j u Hj. apply Hb. lia.
    + exact Pt.
    + exists u. split; [exact Hu|]. replace (i + Datatypes.S k) with (Datatypes.S i + k) by lia. exact Pu.
Qed.

Lemma forN_ext {S} k : forall i (b1 b2 : nat -> S -> res S) s,
  (forall j t, i <= j < i + k -> b1 j t = b2 j t) -> forN k i b1 s = forN k i b2 s.
Proof.
  induction k as [|k IH]; intros i b1 b2 s Hb; [reflexivity|].
  rewrite !forN_S, Hb by lia. destruct (b2 i s); simpl; auto.
  apply IH. intros. apply Hb. lia.
Qed.

(** ** Buffers *)
Lemma skipn_skipn {A} (l : list A) : forall x y, skipn x (skipn y l) = skipn (x + y) l.
Proof.
  induction l as [|a l IH]; intros x y; [now rewrite !skipn_nil|].
  destruct y as [|y]; [now rewrite Nat.add_0_r|].
  rewrite Nat.add_succ_r. simpl. apply IH.
Qed.

Lemma rd_app (a x c : bytes) o l : o = length a -> l = length x -> rd (a ++ x ++ c) o l = Ok x.
Proof.
  intros -> ->. unfold rd. rewrite !app_length.
  destruct (Nat.leb_spec (length a + length x) (length a + (length x + length c))); [|lia].
  rewrite skipn_app, skipn_all, Nat.sub_diag; simpl.
  rewrite firstn_app, firstn_all, Nat.sub_diag; simpl. now rewrite app_nil_r.
Qed.

Lemma rd_ok b o l : o + l <= length b -> rd b o l = Ok (firstn l (skipn o b)).
Proof. intros Hl. unfold rd. destruct (Nat.leb_spec (o + l) (length b)); [reflexivity|lia]. Qed.

Lemma rd_oob b o l : length b < o + l -> rd b o l = UB.
Proof. intros Hl. unfold rd. destruct (Nat.leb_spec (o + l) (length b)); [lia|reflexivity]. Qed.

Lemma rd_all b o l : o = 0 -> l = length b -> rd b o l = Ok b.
Proof. intros -> ->. rewrite rd_ok by lia. simpl. now rewrite firstn_all. Qed.

Lemma rd_length b o l x : rd b o l = Ok x -> length x = l.
Proof.
  unfold rd. destruct (Nat.leb_spec (o + l) (length b)); intros Hx; inversion Hx; subst.
  rewrite firstn_length, skipn_length. lia.
Qed.

Lemma wr_app (a x c d : bytes) o : o = length a -> length d = length x -> wr (a ++ x ++ c) o d = Ok (a ++ d ++ c).
Proof.
  intros -> Hd. unfold wr. rewrite !app_length.
  destruct (Nat.leb_spec (length a + length d) (length a + (length x + length c))); [|lia].
  f_equal. rewrite firstn_app, firstn_all, Nat.sub_diag; simpl. rewrite app_nil_r.
  f_equal. f_equal. rewrite Hd, app_assoc, <- app_length, skipn_app, skipn_all, Nat.sub_diag. reflexivity.
Qed.

Lemma wr_ok b o d : o + length d <= length b -> wr b o d = Ok (firstn o b ++ d ++ skipn (o + length d) b).
Proof. intros Hl. unfold wr. destruct (Nat.leb_spec (o + length d) (length b)); [reflexivity|lia]. Qed.

Lemma wr_oob b o d : length b < o + length d -> wr b o d = UB.
Proof. intros Hl. unfold wr. destruct (Nat.leb_spec (o + length d) (length b)); [lia|reflexivity]. Qed.

Lemma wr_length b o d b' : wr b o d = Ok b' -> length b' = length b.
Proof.
  unfold wr. destruct (Nat.leb_spec (o + length d) (length b)); intros Hx; inversion Hx; subst.
  rewrite !app_length, firstn_length, skipn_length. lia.
Qed.

Lemma wr_all b o d : o = 0 -> length d = length b -> wr b o d = Ok d.
Proof.
  intros -> Hd. rewrite wr_ok by lia. simpl. rewrite Hd, skipn_all2 by lia. now rewrite app_nil_r.
Qed.

(** What a write leaves behind, in terms of prefix and suffix. *)
Lemma wr_spec b o d : o + length d <= length b ->
  exists b', wr b o d = Ok b' /\ length b' = length b /\
    firstn o b' = firstn o b /\ firstn (o + length d) b' = firstn o b ++ d /\
    (forall k, o + length d <= k -> skipn k b' = skipn k b) /\
    (forall k, k <= o -> firstn k b' = firstn k b).
Proof.
  intros Hl. exists (firstn o b ++ d ++ skipn (o + length d) b).
  split; [now apply wr_ok|].
  assert (Hf : length (firstn o b) = o) by (rewrite firstn_length; lia).
  repeat split.
  - rewrite !app_length, skipn_length. lia.
  - rewrite firstn_app, Hf, Nat.sub_diag; simpl. rewrite app_nil_r. rewrite firstn_firstn. f_equal. lia.
  - rewrite app_assoc, firstn_app, app_length, Hf, Nat.sub_diag. simpl. rewrite app_nil_r.
    rewrite firstn_all2; [reflexivity|]. rewrite app_length. lia.
  - intros k Hk. rewrite app_assoc, skipn_app, app_length, Hf.
    rewrite skipn_all2 by (rewrite app_length; lia). simpl.
    rewrite skipn_skipn. f_equal. lia.
  - intros k Hk. rewrite firstn_app, firstn_firstn, Hf.
    replace (Nat.min k o) with k by lia. replace (k - o) with 0 by lia. simpl. now rewrite app_nil_r.
Qed.

Lemma firstn_skipn_eq {A} k (a b : list A) : firstn k a = firstn k b -> skipn k a = skipn k b -> a = b.
Proof. intros H1 H2. rewrite <- (firstn_skipn k a), <- (firstn_skipn k b). congruence. Qed.

Lemma split3 (b : bytes) o l : o + l <= length b ->
  exists x y z, b = x ++ y ++ z /\ length x = o /\ length y = l /\ y = firstn l (skipn o b).
Proof.
  intros Hl. exists (firstn o b), (firstn l (skipn o b)), (skipn (o + l) b).
  repeat split.
  - rewrite <- (firstn_skipn o b) at 1. f_equal.
    rewrite <- (firstn_skipn l (skipn o b)) at 1. f_equal. rewrite skipn_skipn. f_equal. lia.
  - rewrite firstn_length; lia.
  - rewrite firstn_length, skipn_length; lia.
Qed.

(** ** Cells *)
Lemma rdc_ok {A} (l : list A) i d : i < length l -> rdc l i = Ok (nth i l d).
Proof.
  intros Hi. unfold rdc. rewrite (nth_error_nth' l d Hi). reflexivity.
Qed.
Lemma rdc_some {A} (l : list A) i x : nth_error l i = Some x -> rdc l i = Ok x.
Proof. intros Hx. unfold rdc. now rewrite Hx. Qed.
Lemma rdc_inv {A} (l : list A) i x : rdc l i = Ok x -> nth_error l i = Some x.
Proof. unfold rdc. destruct (nth_error l i); congruence. Qed.
Lemma wrc_ok {A} (l : list A) i x : i < length l -> wrc l i x = Ok (upd l i x).
Proof. intros Hi. unfold wrc. destruct (Nat.ltb_spec i (length l)); [reflexivity|lia]. Qed.

Lemma upd_length {A} (l : list A) : forall i x, length (upd l i x) = length l.
Proof. induction l as [|a l IH]; intros [|i] x; simpl; auto. Qed.
Lemma upd_nth_same {A} (l : list A) : forall i x d, i < length l -> nth i (upd l i x) d = x.
Proof. induction l as [|a l IH]; intros [|i] x d Hi; simpl in *; try lia; auto. apply IH. lia. Qed.
Lemma upd_nth_other {A} (l : list A) : forall i j x d, i <> j -> nth j (upd l i x) d = nth j l d.
Proof.
  induction l as [|a l IH]; intros [|i] [|j] x d Hi; simpl; try reflexivity; try lia.
  apply IH. lia.
Qed.
Lemma upd_app_l {A} (a b : list A) i x : i < length a -> upd (a ++ b) i x = upd a i x ++ b.
Proof.
  revert i. induction a as [|y a IH]; intros [|i] Hi; simpl in *; try lia; auto.
  f_equal. apply IH. lia.
Qed.
Lemma upd_app_mid {A} (a b : list A) x y i : i = length a -> upd (a ++ y :: b) i x = a ++ x :: b.
Proof. intros ->. induction a as [|z a IH]; simpl; [reflexivity|]. f_equal. exact IH. Qed.
Lemma nth_error_upd_same {A} (l : list A) : forall i x, i < length l -> nth_error (upd l i x) i = Some x.
Proof. induction l as [|a l IH]; intros [|i] x Hi; simpl in *; try lia; auto. apply IH. lia. Qed.
Lemma nth_error_upd_other {A} (l : list A) : forall i j x, i <> j -> nth_error (upd l i x) j = nth_error l j.
Proof.
  induction l as [|a l IH]; intros [|i] [|j] x Hi; simpl; try reflexivity; try lia.
  apply IH. lia.
Qed.
Lemma firstn_upd_ge {A} (l : list A) : forall k i x, k <= i -> firstn k (upd l i x) = firstn k l.
Proof.
  induction l as [|a l IH]; intros [|k] [|i] x Hk; simpl; try reflexivity; try lia.
  f_equal. apply IH. lia.
Qed.
Lemma firstn_S_upd {A} (l : list A) : forall i x, i < length l -> firstn (S i) (upd l i x) = firstn i l ++ [x].
Proof.
  induction l as [|a l IH]; intros [|i] x Hi; simpl in *; try lia; auto.
  rewrite <- IH by lia. destruct (upd l i x) eqn:Eu; [|reflexivity].
  exfalso. assert (Hlen := upd_length l i x). rewrite Eu in Hlen. simpl in Hlen. lia.
Qed.
Lemma list_ext {A} (d : A) (a b : list A) : length a = length b ->
  (forall i, i < length a -> nth i a d = nth i b d) -> a = b.
Proof. intros Hl Hn. apply (nth_ext a b d d Hl Hn). Qed.

Lemma firstn_S_nth {A} (d : A) (l : list A) : forall i, i < length l -> firstn (S i) l = firstn i l ++ [nth i l d].
Proof.
  induction l as [|a l IH]; intros [|i] Hi; simpl in *; try lia; auto.
  f_equal. apply (IH i). lia.
Qed.
Lemma skipn_nth {A} (d : A) (l : list A) : forall i, i < length l -> skipn i l = nth i l d :: skipn (S i) l.
Proof. induction l as [|a l IH]; intros [|i] Hi; simpl in *; try lia; auto. apply IH. lia. Qed.

Lemma split_nth {A} (d : A) (l : list A) i : i < length l -> l = firstn i l ++ nth i l d :: skipn (S i) l.
Proof. intros Hi. rewrite <- (skipn_nth d l i Hi). symmetry. apply firstn_skipn. Qed.

(** ** Chunked buffers: concatenations of strings of length n *)
Definition chunked (n : nat) (l : list bytes) : Prop := Forall (fun x => length x = n) l.

Lemma chunked_length n l : chunked n l -> length (concat l) = length l * n.
Proof.
  induction l as [|x l IH]; intros Hc; simpl; [reflexivity|].
  inversion Hc as [|? ? Hx Hc']; subst. rewrite app_length, IH by exact Hc'. reflexivity.
Qed.

Lemma chunked_nth n l i : chunked n l -> i < length l -> length (nth i l []) = n.
Proof. intros Hc Hi. apply (proj1 (Forall_forall _ _) Hc). now apply nth_In. Qed.

Lemma chunked_upd n l i x : chunked n l -> length x = n -> chunked n (upd l i x).
Proof.
  intros Hc Hx. revert i. induction Hc as [|y l Hy Hc IH]; intros [|i]; simpl; constructor; auto.
  apply IH.
Qed.
Lemma chunked_app n a b : chunked n (a ++ b) <-> chunked n a /\ chunked n b.
Proof. apply Forall_app. Qed.
Lemma chunked_firstn n k l : chunked n l -> chunked n (firstn k l).
Proof. intros Hc. rewrite <- (firstn_skipn k l) in Hc. now apply chunked_app in Hc. Qed.
Lemma chunked_skipn n k l : chunked n l -> chunked n (skipn k l).
Proof. intros Hc. rewrite <- (firstn_skipn k l) in Hc. now apply chunked_app in Hc. Qed.

Lemma concat_split n l i : chunked n l -> i < length l ->
  concat l = concat (firstn i l) ++ nth i l [] ++ concat (skipn (S i) l) /\ length (concat (firstn i l)) = i * n.
Proof.
  intros Hc Hi. split.
  - rewrite (split_nth [] l i Hi) at 1. rewrite concat_app. reflexivity.
  - rewrite (chunked_length n) by now apply chunked_firstn. rewrite firstn_length. f_equal. lia.
Qed.

Lemma rd_chunk n l pre post i : chunked n l -> i < length l ->
  rd (pre ++ concat l ++ post) (length pre + i * n) n = Ok (nth i l []).
Proof.
  intros Hc Hi. destruct (concat_split n l i Hc Hi) as [Heq Hlen]. rewrite Heq.
  replace (pre ++ (concat (firstn i l) ++ nth i l [] ++ concat (skipn (S i) l)) ++ post)
    with ((pre ++ concat (firstn i l)) ++ nth i l [] ++ (concat (skipn (S i) l) ++ post))
    by (rewrite <- !app_assoc; reflexivity).
  apply rd_app; [rewrite app_length; lia|]. symmetry. now apply chunked_nth.
Qed.

Lemma rd_chunk0 n l i : chunked n l -> i < length l -> rd (concat l) (i * n) n = Ok (nth i l []).
Proof.
  intros Hc Hi. generalize (rd_chunk n l [] [] i Hc Hi). simpl. now rewrite app_nil_r.
Qed.

Lemma rd_chunk2 n l i : chunked n l -> S i < length l ->
  rd (concat l) (i * n) (2 * n) = Ok (nth i l [] ++ nth (S i) l []).
Proof.
  intros Hc Hi. destruct (concat_split n l i Hc) as [Heq Hlen]; [lia|]. rewrite Heq.
  rewrite (skipn_nth (A:=bytes) [] l (S i)) by lia.
  change (concat (nth (S i) l [] :: skipn (S (S i)) l)) with (nth (S i) l [] ++ concat (skipn (S (S i)) l)).
  rewrite (app_assoc (nth i l [])). apply rd_app; [lia|].
  rewrite app_length, !(chunked_nth n) by (assumption || lia). lia.
Qed.

Lemma wr_chunk n l pre post i x : chunked n l -> i < length l -> length x = n ->
  wr (pre ++ concat l ++ post) (length pre + i * n) x = Ok (pre ++ concat (upd l i x) ++ post).
Proof.
  intros Hc Hi Hx. destruct (concat_split n l i Hc Hi) as [Heq Hlen].
  assert (Hu : concat (upd l i x) = concat (firstn i l) ++ x ++ concat (skipn (S i) l)).
  { rewrite (split_nth [] l i Hi) at 1.
    rewrite upd_app_mid by (rewrite firstn_length; lia).
    rewrite concat_app. reflexivity. }
  rewrite Heq, Hu.
  replace (pre ++ (concat (firstn i l) ++ nth i l [] ++ concat (skipn (S i) l)) ++ post)
    with ((pre ++ concat (firstn i l)) ++ nth i l [] ++ (concat (skipn (S i) l) ++ post))
    by (rewrite <- !app_assoc; reflexivity).
  rewrite wr_app; [f_equal; rewrite <- !app_assoc; reflexivity|rewrite app_length; lia|].
  rewrite (chunked_nth n) by assumption. exact Hx.
Qed.

Lemma wr_chunk0 n l i x : chunked n l -> i < length l -> length x = n ->
  wr (concat l) (i * n) x = Ok (concat (upd l i x)).
Proof.
  intros Hc Hi Hx. generalize (wr_chunk n l [] [] i x Hc Hi Hx). simpl. now rewrite !app_nil_r.
Qed.

(** every buffer of k*n bytes is chunked *)
Lemma to_chunks n k : forall b, length b = k * n -> exists l, length l = k /\ chunked n l /\ concat l = b.
Proof.
  induction k as [|k IH]; intros b Hb; simpl in Hb.
  - exists []. repeat split; [constructor|]. destruct b; [reflexivity|discriminate].
  - destruct (IH (skipn n b)) as [l [Hl [Hc He]]]; [rewrite skipn_length; lia|].
    exists (firstn n b :: l). repeat split; simpl; [lia| |].
    + constructor; [rewrite firstn_length; lia|exact Hc].
    + rewrite He. apply firstn_skipn.
Qed.

Lemma chunked_map_seq n f a k : (forall i, a <= i < a + k -> length (f i) = n) -> chunked n (map f (seq a k)).
Proof.
  intros Hf. apply Forall_forall. intros x Hx. apply in_map_iff in Hx. destruct Hx as [i [<- Hi]].
  apply Hf. now apply in_seq in Hi.
Qed.

Lemma map_seq_S {A} (f : nat -> A) a k : map f (seq a (S k)) = map f (seq a k) ++ [f (a + k)].
Proof. rewrite seq_S, map_app. reflexivity. Qed.

Lemma nth_map_seq {A} (f : nat -> A) a k i d : i < k -> nth i (map f (seq a k)) d = f (a + i).
Proof.
  intros Hi. rewrite (nth_indep _ d (f 0)) by (rewrite map_length, seq_length; exact Hi).
  rewrite map_nth, seq_nth by exact Hi. reflexivity.
Qed.

Lemma concat_app_single (l : list bytes) x : concat (l ++ [x]) = concat l ++ x.
Proof. rewrite concat_app. simpl. now rewrite app_nil_r. Qed.

Lemma uninit_length {E : Env} k : length (uninit k) = k.
Proof. unfold uninit. rewrite map_length, seq_length. reflexivity. Qed.
Lemma uninit_nat_length {E : Env} k : length (uninit_nat k) = k.
Proof. unfold uninit_nat. rewrite map_length, seq_length. reflexivity. Qed.

(** ** bytes_ok *)
Lemma bytes_ok_app a b : bytes_ok (a ++ b) <-> bytes_ok a /\ bytes_ok b.
Proof. apply Forall_app. Qed.
Lemma bytes_ok_firstn k a : bytes_ok a -> bytes_ok (firstn k a).
Proof. intros Ha. rewrite <- (firstn_skipn k a) in Ha. now apply bytes_ok_app in Ha. Qed.
Lemma bytes_ok_skipn k a : bytes_ok a -> bytes_ok (skipn k a).
Proof. intros Ha. rewrite <- (firstn_skipn k a) in Ha. now apply bytes_ok_app in Ha. Qed.
