From Verif Require Import Base Lib ProofUtils ModelThreads SpecThreads ProofThreads.

(** the part of a step that concerns fd and the thread itself *)
Definition next (fd : option nat) (e : event) (th : thread) : option nat * thread :=
  let go p := (fd, mkThread p (th_x th) (th_len th)) in
  match th_at th with
  | AtCheck => go (match fd with None => AtOpen | Some k => AtLoop (Some k) end)
  | AtOpen => go (AtStore (e_open e))
  | AtStore v => (v, mkThread (AtTest v) (th_x th) (th_len th))
  | AtTest v => go (match (if e_reload e then fd else v) with None => AtOpen | Some k => AtLoop (Some k) end)
  | AtLoop c => go (if (th_len th =? 0)%N then Returned else AtRead (if e_reload e then fd else match c with Some k => Some k | None => fd end))
  | AtRead f =>
      let i := if (th_len th <? 1048576)%N then th_len th else 1048576%N in
      match f, e_read e with
      | Some _, Some c =>
          let k := Nat.min c (N.to_nat i) in
          if k <? 1 then go (AtLoop None) else (fd, mkThread (AtLoop None) (th_x th + k) (th_len th - N.of_nat k))
      | _, _ => go (AtLoop None)
      end
  | Returned => (fd, th)
  end.
Lemma upd_self {A} (l : list A) : forall i x, nth_error l i = Some x -> upd l i x = l.
Proof. induction l as [|y l IH]; intros [|i] x; cbn; try discriminate; [now intros [= ->]|]. intros Hx. now rewrite IH. Qed.
Lemma step_next dev w e w' th : step dev w e = Ok w' -> nth_error (w_th w) (e_th e) = Some th ->
  w_fd w' = fst (next (w_fd w) e th) /\ w_th w' = upd (w_th w) (e_th e) (snd (next (w_fd w) e th)).
Proof.
  intros Hs Hth. unfold step in Hs. rewrite Hth in Hs. unfold advance, set_th in Hs. unfold next.
  destruct (th_at th) as [| |v|v|c|f|]; try (injection Hs as <-; split; reflexivity).
  - destruct f as [f|]; [|injection Hs as <-; split; reflexivity]. destruct (e_read e) as [c|]; [|injection Hs as <-; split; reflexivity].
    destruct (_ <? 1)%nat; [injection Hs as <-; split; reflexivity|]. destruct (wr _ _ _) as [m'| |]; cbn [bind] in Hs; try discriminate. injection Hs as <-. split; reflexivity.
  - injection Hs as <-. split; [reflexivity|]. cbn [snd]. symmetry. now apply upd_self.
Qed.
Lemma steps_snoc dev es : forall w e w', steps dev w es = Ok w' -> steps dev w (es ++ [e]) = step dev w' e.
Proof.
  induction es as [|x es IH]; intros w e w' Hs; cbn [app steps] in *; [injection Hs as <-; destruct (step dev w e); reflexivity|].
  destruct (step dev w x); cbn [bind] in *; try discriminate. now apply IH.
Qed.

Lemma all_eventually (P : nat -> nat -> Prop) k : (forall t, t < k -> exists T, forall T', T <= T' -> P t T') -> exists T, forall T', T <= T' -> forall t, t < k -> P t T'.
Proof.
  induction k as [|k IH]; intros Hk; [exists 0; lia|]. destruct IH as [T1 H1]; [intros t Ht; apply Hk; lia|]. destruct (Hk k ltac:(lia)) as [T2 H2].
  exists (Nat.max T1 T2). intros T' HT t Ht. destruct (Nat.eq_dec t k) as [->|]; [apply H2; lia|apply H1; lia].
Qed.

Section Live.
Variable (dev : nat -> N) (mem : bytes) (calls : list (nat * N)) (fd0 : option nat) (ev : nat -> event).
Hypothesis Hsep : separate mem calls.
Hypothesis Hfair : fair ev (length calls).
Let n := length calls.

Definition W (T : nat) : world := match steps dev (start fd0 mem calls) (prefix ev T) with Ok w => w | _ => start fd0 mem calls end.
Lemma W_ok T : steps dev (start fd0 mem calls) (prefix ev T) = Ok (W T).
Proof. unfold W. destruct (threads_safe dev mem calls Hsep fd0 (prefix ev T)) as (w & _ & _ & A & _). now rewrite A. Qed.
Lemma W_S T : step dev (W T) (ev T) = Ok (W (S T)).
Proof. rewrite <- W_ok. unfold prefix. rewrite seq_S, map_app. cbn [map Nat.add]. symmetry. apply steps_snoc, W_ok. Qed.
Lemma W_len T : length (w_th (W T)) = n.
Proof.
  induction T as [|T IH]; [apply map_length|]. pose proof (W_S T) as Hs. destruct (nth_error (w_th (W T)) (e_th (ev T))) as [th|] eqn:Hth.
  - destruct (step_next _ _ _ _ _ Hs Hth) as [_ ->]. now rewrite upd_length.
  - unfold step in Hs. rewrite Hth in Hs. injection Hs as <-. exact IH.
Qed.
Definition fd (T : nat) := w_fd (W T).
Definition th (T t : nat) : thread := nth t (w_th (W T)) (mkThread Returned 0 0).
Lemma th_nth T t : t < n -> nth_error (w_th (W T)) t = Some (th T t).
Proof. intros Ht. apply nth_error_nth'. now rewrite W_len. Qed.
Lemma turn T t : e_th (ev T) = t -> t < n -> fd (S T) = fst (next (fd T) (ev T) (th T t)) /\ th (S T) t = snd (next (fd T) (ev T) (th T t)).
Proof.
  intros He Ht. pose proof (th_nth T t Ht) as Hth. rewrite <- He in Hth at 1. destruct (step_next _ _ _ _ _ (W_S T) Hth) as [A B]. split; [exact A|].
  unfold th at 1. rewrite B, He. apply upd_nth_same. now rewrite W_len.
Qed.
Lemma other T t : e_th (ev T) <> t -> th (S T) t = th T t.
Proof.
  intros He. pose proof (W_S T) as Hs. destruct (nth_error (w_th (W T)) (e_th (ev T))) as [x|] eqn:Hth.
  - destruct (step_next _ _ _ _ _ Hs Hth) as [_ B]. unfold th. rewrite B. now apply upd_nth_other.
  - unfold step in Hs. rewrite Hth in Hs. injection Hs as Hs. unfold th. now rewrite <- Hs.
Qed.
Lemma idle T : ~ e_th (ev T) < n -> fd (S T) = fd T.
Proof.
  intros He. pose proof (W_S T) as Hs. destruct (nth_error (w_th (W T)) (e_th (ev T))) as [x|] eqn:Hth.
  - exfalso. apply He. rewrite <- (W_len T). apply nth_error_Some. congruence.
  - unfold step in Hs. rewrite Hth in Hs. injection Hs as Hs. unfold fd. now rewrite <- Hs.
Qed.
Lemma start_at t : t < n -> th_at (th 0 t) = AtCheck.
Proof.
  intros Ht. pose proof (th_nth 0 t Ht) as Hx. change (w_th (W 0)) with (map (fun c : nat * N => mkThread AtCheck (fst c) (snd c)) calls) in Hx. rewrite nth_error_map in Hx.
  destruct (nth_error calls t) as [c|]; [|discriminate]. cbn [option_map] in Hx. injection Hx as Hx. now rewrite <- Hx.
Qed.

(** the next turn of [t] *)
Lemma next_turn t T : t < n -> exists T', T <= T' /\ e_th (ev T') = t /\ th T' t = th T t.
Proof.
  intros Ht. destruct (Hfair t T Ht) as (T2 & HT & He).
  remember (T2 - T) as g eqn:Eg. revert T HT Eg. induction g as [|g IH]; intros T HT Eg; [exists T2; replace T2 with T in * by lia; auto|].
  destruct (Nat.eq_dec (e_th (ev T)) t) as [Ex|Ex]; [exists T; auto|].
  destruct (IH (S T)) as (T' & A & B & C); [lia|lia|]. exists T'. rewrite C, other by exact Ex. split; [lia|auto].
Qed.

Lemma reading_len T t f : t < n -> th_at (th T t) = AtRead f -> th_len (th T t) <> 0%N.
Proof.
  intros Ht. revert f. induction T as [|T IH]; intros f; [rewrite start_at by exact Ht; discriminate|].
  destruct (Nat.eq_dec (e_th (ev T)) t) as [He|He]; [|rewrite other by exact He; apply IH].
  destruct (turn T t He Ht) as [_ ->]. unfold next. destruct (th_at (th T t)) as [| |v|v|c|g|] eqn:Hat; cbn; try discriminate.
  - destruct (fd T); discriminate.
  - destruct (if e_reload (ev T) then fd T else v); discriminate.
  - destruct (N.eqb_spec (th_len (th T t)) 0); [discriminate|auto].
  - destruct g as [g|]; [|discriminate]. destruct (e_read (ev T)) as [c|]; [|discriminate]. destruct (Nat.min _ _) as [|k]; discriminate.
  - rewrite Hat. discriminate.
Qed.

(** while fd is -1, some thread is about to store a descriptor, unless none has begun *)
Definition busy (p : place) : Prop := match p with AtOpen | AtStore _ | AtTest None => True | _ => False end.
Lemma someone_opens T : fd T = None -> (exists t, t < n /\ busy (th_at (th T t))) \/ forall t, t < n -> th_at (th T t) = AtCheck.
Proof.
  induction T as [|T IH]; [intros _; right; apply start_at|]. intros Hfd.
  destruct (Nat.lt_ge_cases (e_th (ev T)) n) as [Ht|Ht].
  2:{ rewrite idle in Hfd by lia. destruct (IH Hfd) as [(t & A & B)|A]; [left; exists t|right; intros t Hlt]; rewrite other by lia; auto. }
  set (t := e_th (ev T)) in *. destruct (turn T t eq_refl Ht) as [Ef Eth]. rewrite Ef in Hfd.
  assert (Hcase : busy (th_at (th (S T) t)) \/ (fd T = None /\ ~ busy (th_at (th T t)) /\ th_at (th T t) <> AtCheck)).
  { rewrite Eth. clear Ef Eth. unfold next in *. destruct (th_at (th T t)) as [| |v|v|c|f|] eqn:Hat; cbn in *.
    - rewrite Hfd. now left.
    - now left.
    - subst v. now left.
    - rewrite Hfd. destruct (e_reload (ev T)); [now left|]. destruct v; [right|now left]. repeat split; try discriminate; auto.
    - right. repeat split; auto; discriminate.
    - right. repeat split; [|auto|discriminate]. destruct f; [|exact Hfd]. destruct (e_read (ev T)); [|exact Hfd]. destruct (Nat.min _ _); exact Hfd.
    - right. repeat split; auto; discriminate. }
  destruct Hcase as [Hb|(Hn & Hnb & Hnc)]; [left; eauto|]. destruct (IH Hn) as [(u & A & B)|A]; [|exfalso; exact (Hnc (A t Ht))].
  left. exists u. split; [exact A|]. rewrite other; [exact B|]. intros Heq. apply Hnb. unfold t. now rewrite Heq.
Qed.

Variable T0 : nat.
Hypothesis Hrec : forall T', T0 <= T' -> e_open (ev T') <> None /\ exists c, e_read (ev T') = Some c /\ 0 < c.

Definition clean (T : nat) : Prop := forall t, t < n -> th_at (th T t) <> AtStore None.
Lemma no_more_none T t : T0 <= T -> t < n -> e_th (ev T) = t \/ th_at (th T t) <> AtStore None -> th_at (th (S T) t) <> AtStore None.
Proof.
  intros HT Ht Hc. destruct (Nat.eq_dec (e_th (ev T)) t) as [He|He].
  2:{ rewrite other by exact He. destruct Hc as [|Hc]; [contradiction|exact Hc]. }
  destruct (turn T t He Ht) as [_ ->]. destruct (Hrec T HT) as [Ho _]. unfold next. destruct (th_at (th T t)) as [| |v|v|c|g|] eqn:Hat; cbn; try discriminate.
  - destruct (fd T); discriminate.
  - congruence.
  - destruct (if e_reload (ev T) then fd T else v); discriminate.
  - destruct (N.eqb (th_len (th T t)) 0); discriminate.
  - destruct g as [g|]; [|discriminate]. destruct (e_read (ev T)) as [c|]; [|discriminate]. destruct (Nat.min _ _) as [|k]; discriminate.
  - rewrite Hat. discriminate.
Qed.
Lemma gets_clean : exists T1, T0 <= T1 /\ forall T, T1 <= T -> clean T.
Proof.
  destruct (all_eventually (fun t T => th_at (th T t) <> AtStore None) n) as [T1 H1].
  - intros t Ht. destruct (next_turn t T0 Ht) as (T & HT & He & _). exists (S T). intros T' HT'.
    remember (T' - S T) as g eqn:Eg. revert T' HT' Eg. induction g as [|g IH]; intros T' HT' Eg.
    + replace T' with (S T) by lia. apply no_more_none; auto.
    + destruct T' as [|T']; [lia|]. apply no_more_none; [lia|exact Ht|]. right. apply IH; lia.
  - exists (Nat.max T0 T1). split; [lia|]. intros T HT t Ht. apply H1; [lia|exact Ht].
Qed.

Section Clean.
Variable T1 : nat.
Hypothesis HT1 : T0 <= T1.
Hypothesis Hclean : forall T, T1 <= T -> clean T.
Lemma fd_stays T : T1 <= T -> fd T <> None -> fd (S T) <> None.
Proof.
  intros HT Hf. destruct (Nat.lt_ge_cases (e_th (ev T)) n) as [Ht|Ht]; [|rewrite idle by lia; exact Hf].
  destruct (turn T _ eq_refl Ht) as [-> _]. pose proof (Hclean T HT _ Ht) as Hc. unfold next. destruct (th_at (th T _)) as [| |v|v|c|g|] eqn:Hat; cbn; try exact Hf.
  - congruence.
  - destruct g as [g|]; [|exact Hf]. destruct (e_read (ev T)) as [c|]; [|exact Hf]. destruct (Nat.min _ _); exact Hf.
Qed.
Definition rank0 (p : place) : option nat := match p with AtCheck | AtTest None => Some 3 | AtOpen => Some 2 | AtStore _ => Some 1 | _ => None end.
Lemma gets_fd_from u k : u < n -> forall T, T1 <= T -> rank0 (th_at (th T u)) = Some k -> exists T', T <= T' /\ fd T' <> None.
Proof.
  intros Hu. induction k as [k IH] using lt_wf_ind. intros T HT Hr.
  assert (Hx : exists T', T <= T' /\ (fd T' <> None \/ (e_th (ev T') = u /\ th T' u = th T u /\ fd T' = None))).
  { destruct (next_turn u T Hu) as (T' & A & B & C). exists T'. split; [exact A|]. destruct (fd T'); [left; discriminate|right; auto]. }
  destruct Hx as (T' & A & [B|(B & C & D)]); [eauto|]. rewrite <- C in Hr. destruct (turn T' u B Hu) as [Ef Et].
  pose proof (Hclean T' ltac:(lia) u Hu) as Hc. destruct (Hrec T' ltac:(lia)) as [Ho _].
  assert (Hgo : (exists j, j < k /\ rank0 (th_at (th (S T') u)) = Some j) \/ fd (S T') <> None).
  { rewrite Ef, Et. clear Ef Et. unfold next. rewrite D in *. destruct (th_at (th T' u)) as [| |v|v|c|g|] eqn:Hat; cbn in *; try discriminate.
    - left. exists 2. injection Hr as <-. split; [lia|reflexivity].
    - left. exists 1. injection Hr as <-. split; [lia|reflexivity].
    - right. congruence.
    - destruct v; [discriminate|]. injection Hr as <-. left. exists 2. split; [lia|]. destruct (e_reload (ev T')); reflexivity. }
  destruct Hgo as [(j & Hj & Hjr)|Hf]; [|exists (S T'); split; [lia|exact Hf]].
  destruct (IH j Hj (S T') ltac:(lia) Hjr) as (T2 & P & Q). exists T2. split; [lia|exact Q].
Qed.
Lemma gets_fd : 0 < n -> exists T2, T1 <= T2 /\ forall T, T2 <= T -> fd T <> None.
Proof.
  intros Hn. assert (Hx : exists T2, T1 <= T2 /\ fd T2 <> None).
  { destruct (fd T1) eqn:Ef; [exists T1; split; [lia|rewrite Ef; discriminate]|]. destruct (someone_opens T1 Ef) as [(u & Hu & Hb)|Hall].
    - destruct (th_at (th T1 u)) as [| |v|v|c|g|] eqn:Hat; cbn in Hb; try contradiction; [eapply (gets_fd_from u 2)|eapply (gets_fd_from u 1)|destruct v; [contradiction|]; eapply (gets_fd_from u 3)]; eauto; rewrite Hat; reflexivity.
    - eapply (gets_fd_from 0 3); eauto. rewrite (Hall 0 Hn). reflexivity. }
  destruct Hx as (T2 & A & B). exists T2. split; [exact A|]. intros T HT. remember (T - T2) as g eqn:Eg. revert T HT Eg. induction g as [|g IH]; intros T HT Eg; [now replace T with T2 by lia|].
  destruct T as [|T]; [lia|]. apply fd_stays; [lia|]. apply IH; lia.
Qed.
Section Open.
Variable T2 : nat.
Hypothesis HT2 : T1 <= T2.
Hypothesis Hopen : forall T, T2 <= T -> fd T <> None.
Definition rank (x : thread) : nat := 10 * N.to_nat (th_len x) +
  match th_at x with AtTest None => 6 | AtOpen => 5 | AtStore _ => 4 | AtTest (Some _) => 3 | AtCheck => 3 | AtRead None => 3 | AtLoop _ => 2 | AtRead (Some _) => 1 | Returned => 0 end.
Lemma rank_down T t : T2 <= T -> t < n -> e_th (ev T) = t -> th_at (th T t) = Returned \/ rank (th (S T) t) < rank (th T t).
Proof.
  intros HT Ht He. destruct (turn T t He Ht) as [_ Et]. rewrite Et. clear Et. pose proof (Hopen T HT) as Ho. pose proof (Hclean T ltac:(lia) t Ht) as Hc. destruct (Hrec T ltac:(lia)) as [Hop (c & Hrd & Hpos)].
  pose proof (reading_len T t) as Hl. destruct (fd T) as [k|] eqn:Ef; [clear Ho|congruence]. unfold next, rank. destruct (th_at (th T t)) as [| |v|v|cc|g|] eqn:Hat; cbn [snd th_at th_len fst]; [right..|now left].
  - lia.
  - lia.
  - destruct v; [|congruence]. lia.
  - destruct (e_reload (ev T)), v; lia.
  - destruct (N.eqb_spec (th_len (th T t)) 0); [lia|]. destruct (e_reload (ev T)); [lia|]. destruct cc; lia.
  - specialize (Hl g Ht eq_refl). rewrite Hrd. destruct g as [g|]; [|cbn [snd th_at th_len]; lia].
    destruct (Nat.ltb_spec (Nat.min c (N.to_nat (if (th_len (th T t) <? 1048576)%N then th_len (th T t) else 1048576%N))) 1) as [Hk|Hk]; cbn [snd th_at th_len].
    + destruct (N.ltb_spec (th_len (th T t)) 1048576); lia.
    + lia.
Qed.
Lemma returned_stays t T : t < n -> th_at (th T t) = Returned -> forall T', T <= T' -> th_at (th T' t) = Returned.
Proof.
  intros Ht Hr T' HT. induction HT as [|T' HT IH]; [exact Hr|]. destruct (Nat.eq_dec (e_th (ev T')) t) as [He|He]; [|now rewrite other].
  destruct (turn T' t He Ht) as [_ ->]. unfold next. rewrite IH. exact IH.
Qed.
Lemma returns t : t < n -> exists T, forall T', T <= T' -> th_at (th T' t) = Returned.
Proof.
  intros Ht. assert (Hx : forall k T, T2 <= T -> rank (th T t) <= k -> exists T', T <= T' /\ th_at (th T' t) = Returned).
  { induction k as [k IH] using lt_wf_ind. intros T HT Hk. destruct (next_turn t T Ht) as (T' & A & B & C). destruct (rank_down T' t ltac:(lia) Ht B) as [Hd|Hd]; [eauto|].
    rewrite C in Hd. destruct (IH (rank (th (S T') t)) ltac:(lia) (S T') ltac:(lia) ltac:(lia)) as (T3 & P & Q). exists T3. split; [lia|exact Q]. }
  destruct (Hx _ T2 (le_n _) (le_n _)) as (T & _ & Hd). exists T. now apply returned_stays.
Qed.
End Open.
End Clean.
End Live.

Lemma threads_live dev fd mem calls ev : separate mem calls -> fair ev (length calls) -> recovers ev ->
  exists T, forall T', T <= T' -> exists w, steps dev (start fd mem calls) (prefix ev T') = Ok w /\ forall t, t < length calls -> returned w t.
Proof.
  intros Hsep Hfair (T0 & Hrec). destruct (gets_clean dev mem calls fd ev Hsep Hfair T0 Hrec) as (T1 & HT1 & Hclean).
  destruct (Nat.eq_dec (length calls) 0) as [Hz|Hz].
  - exists 0. intros T' _. eexists. split; [apply (W_ok dev mem calls fd ev Hsep)|]. lia.
  - destruct (gets_fd dev mem calls fd ev Hsep Hfair T0 Hrec T1 HT1 Hclean ltac:(lia)) as (T2 & HT2 & Hopen).
    destruct (all_eventually (fun t T => th_at (th dev mem calls fd ev T t) = Returned) (length calls) (returns dev mem calls fd ev Hsep Hfair T0 Hrec T1 HT1 Hclean T2 HT2 Hopen)) as [T HT].
    exists T. intros T' HT'. eexists. split; [apply (W_ok dev mem calls fd ev Hsep)|]. intros t Ht. eexists. split; [apply (th_nth dev mem calls fd ev Hsep); exact Ht|]. now apply HT.
Qed.
