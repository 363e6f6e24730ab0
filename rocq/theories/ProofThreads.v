From Verif Require Import Base Lib ProofUtils ProofCore.
From Verif Require ProofComp2.
From Verif Require Import ModelThreads SpecThreads.

Section Th.
Variable (dev : nat -> N) (mem : bytes) (calls : list (nat * N)).
Hypothesis Hsep : separate mem calls.

(** where each thread is in its call *)
Definition tracked (w : world) (got : nat -> nat) : Prop :=
  length (w_th w) = length calls /\
  forall t x len, nth_error calls t = Some (x, len) -> exists th, nth_error (w_th w) t = Some th /\
    th_x th = x + got t /\ (th_len th + N.of_nat (got t) = len)%N /\ (th_at th = Returned -> th_len th = 0%N).

Lemma tracked_same w t th p got : tracked w got -> nth_error (w_th w) t = Some th -> (p = Returned -> th_len th = 0%N) ->
  forall fd, tracked (mkWorld fd (w_used w) (w_mem w) (upd (w_th w) t (mkThread p (th_x th) (th_len th)))) got.
Proof.
  intros [L T] Hth Hp fd. split; [cbn; now rewrite upd_length|]. intros u x len Hu. destruct (T u x len Hu) as (th' & A & B & C & D). cbn [w_th].
  destruct (Nat.eq_dec u t) as [->|Hne].
  - rewrite Hth in A. injection A as <-. exists (mkThread p (th_x th) (th_len th)). split; [apply nth_error_upd_same, nth_error_Some; congruence|]. cbn. auto.
  - exists th'. rewrite nth_error_upd_other by congruence. auto.
Qed.
Lemma served_same w got src fd ths : served dev mem calls w got src -> tracked (mkWorld fd (w_used w) (w_mem w) ths) got -> served dev mem calls (mkWorld fd (w_used w) (w_mem w) ths) got src.
Proof.
  intros S [L T]. constructor; try apply S.
  intros t x len Hc. pose proof (served_all _ _ _ _ _ _ S t x len Hc) as [A _]. split; [exact A|].
  intros (th & Hth & Hr). destruct (T t x len Hc) as (th' & A' & B & C & D). cbn in Hth, A'. rewrite Hth in A'. injection A' as <-. specialize (D Hr). lia.
Qed.

Lemma nth_wr_in b o d b' i : wr b o d = Ok b' -> i < length d -> nth (o + i) b' 0%N = nth i d 0%N.
Proof.
  unfold wr. destruct (Nat.leb_spec (o + length d) (length b)); [|discriminate]. intros K Hi. injection K as <-.
  rewrite app_nth2; rewrite firstn_length, Nat.min_l by lia; [|lia]. replace (o + i - o) with i by lia. now rewrite app_nth1.
Qed.
Lemma nth_wr_out b o d b' i : wr b o d = Ok b' -> i < o \/ o + length d <= i -> nth i b' 0%N = nth i b 0%N.
Proof.
  unfold wr. destruct (Nat.leb_spec (o + length d) (length b)) as [Hle|]; [|discriminate]. intros K Hi. injection K as <-.
  destruct Hi as [Hi|Hi].
  - rewrite app_nth1 by (rewrite firstn_length; lia). rewrite <- (firstn_skipn o b) at 2. now rewrite app_nth1 by (rewrite firstn_length; lia).
  - rewrite app_nth2; rewrite firstn_length, Nat.min_l by lia; [|lia]. rewrite app_nth2 by lia. rewrite ProofComp2.nth_skipn. f_equal. lia.
Qed.
Lemma wr_len_th b o d b' : wr b o d = Ok b' -> length b' = length b.
Proof. unfold wr. destruct (Nat.leb_spec (o + length d) (length b)); [|discriminate]. intros K. injection K as <-. rewrite !app_length, firstn_length, skipn_length. lia. Qed.

Lemma step_served w got src e : tracked w got -> served dev mem calls w got src ->
  exists w' got' src', step dev w e = Ok w' /\ tracked w' got' /\ served dev mem calls w' got' src'.
Proof.
  intros T S. unfold step. destruct (nth_error (w_th w) (e_th e)) as [th|] eqn:Hth; [|exists w, got, src; auto].
  assert (Hgo : forall p fd, (p = Returned -> th_len th = 0%N) ->
    exists w' got' src', Ok (mkWorld fd (w_used w) (w_mem w) (upd (w_th w) (e_th e) (mkThread p (th_x th) (th_len th)))) = Ok w' /\ tracked w' got' /\ served dev mem calls w' got' src').
  { intros p fd Hp. eexists _, got, src. split; [reflexivity|]. pose proof (tracked_same w (e_th e) th p got T Hth Hp fd) as T'. split; [exact T'|]. now apply served_same. }
  unfold advance, set_th. destruct (th_at th) as [| |v|v|c|f|] eqn:Hat.
  - apply Hgo. destruct (w_fd w); discriminate.
  - apply Hgo. discriminate.
  - apply Hgo. discriminate.
  - apply Hgo. destruct (if e_reload e then w_fd w else v); discriminate.
  - apply Hgo. destruct (N.eqb_spec (th_len th) 0); [auto|discriminate].
  - destruct f as [f|]; [|apply Hgo; discriminate]. destruct (e_read e) as [c|]; [|apply Hgo; discriminate].
    set (i := if (th_len th <? 1048576)%N then th_len th else 1048576%N). set (k := Nat.min c (N.to_nat i)).
    destruct (Nat.ltb_spec k 1) as [Hk|Hk]; [apply Hgo; discriminate|].
    assert (Hi : (i <= th_len th)%N). { unfold i. destruct (N.ltb_spec (th_len th) 1048576); lia. }
    assert (Hkl : k <= N.to_nat (th_len th)) by lia. clearbody k. clear i Hi c.
    set (t := e_th e) in *. destruct T as [Lt T]. destruct Hsep as [Hin Hdis].
    assert (Ht : t < length calls). { rewrite <- Lt. apply nth_error_Some. congruence. }
    destruct (nth_error calls t) as [[x len]|] eqn:Hc; [|apply nth_error_None in Hc; lia].
    destruct (T t x len Hc) as (th' & A & B & C & D). rewrite Hth in A. injection A as <-. pose proof (Hin _ _ _ Hc) as Hfit.
    assert (Hw : exists m', wr (w_mem w) (th_x th) (map dev (seq (w_used w) k)) = Ok m').
    { unfold wr. rewrite map_length, seq_length. destruct (Nat.leb_spec (th_x th + k) (length (w_mem w))) as [|Hx]; [eauto|]. rewrite (served_length _ _ _ _ _ _ S) in Hx. lia. }
    destruct Hw as [m' Hw]. rewrite Hw. cbn [bind].
    set (got' := fun u => if u =? t then got t + k else got u).
    set (src' := fun u j => if (u =? t) && (got t <=? j) then w_used w + (j - got t) else src u j).
    eexists _, got', src'. split; [reflexivity|].
    assert (Gt : got' t = got t + k) by (unfold got'; now rewrite Nat.eqb_refl).
    assert (Gu : forall u, u <> t -> got' u = got u) by (intros u Hu; unfold got'; now rewrite (proj2 (Nat.eqb_neq u t) Hu)).
    assert (Sold : forall u j, u <> t \/ j < got t -> src' u j = src u j).
    { intros u j Hu. unfold src'. destruct (Nat.eqb_spec u t) as [->|]; [|reflexivity]. destruct (Nat.leb_spec (got t) j); [lia|reflexivity]. }
    assert (Snew : forall j, got t <= j -> src' t j = w_used w + (j - got t)).
    { intros j Hj. unfold src'. rewrite Nat.eqb_refl, (proj2 (Nat.leb_le _ _) Hj). reflexivity. }
    assert (T' : tracked (mkWorld (w_fd w) (w_used w + k) m' (upd (w_th w) t (mkThread (AtLoop None) (th_x th + k) (th_len th - N.of_nat k)))) got').
    { split; [cbn; now rewrite upd_length|]. intros u y len' Hu. cbn [w_th]. destruct (Nat.eq_dec u t) as [->|Hne].
      - rewrite Hc in Hu. injection Hu as <- <-. eexists. split; [apply nth_error_upd_same, nth_error_Some; congruence|]. cbn. rewrite Gt. repeat split; [lia|lia|discriminate].
      - rewrite nth_error_upd_other by congruence. rewrite (Gu u Hne). exact (T u y len' Hu). }
    split; [exact T'|].
    assert (Hlt : forall u j, u < length calls -> j < got u -> src u j < w_used w).
    { intros u j Hu Hj. destruct (nth_error calls u) as [[y l']|] eqn:Hcu; [|apply nth_error_None in Hcu; lia]. exact (proj2 (served_bytes _ _ _ _ _ _ S u y l' j Hcu Hj)). }
    assert (Ld : length (map dev (seq (w_used w) k)) = k) by now rewrite map_length, seq_length.
    constructor.
    + cbn. rewrite (wr_len_th _ _ _ _ Hw). apply S.
    + intros u y len' Hu. destruct (served_all _ _ _ _ _ _ S u y len' Hu) as [P Q]. destruct (Nat.eq_dec u t) as [->|Hne].
      * rewrite Hc in Hu. injection Hu as <- <-. rewrite Gt. split; [lia|]. intros (th2 & E1 & E2). cbn [w_th] in E1.
        rewrite nth_error_upd_same in E1 by (apply nth_error_Some; congruence). injection E1 as <-. discriminate E2.
      * rewrite (Gu u Hne). split; [exact P|]. intros (th2 & E1 & E2). apply Q. exists th2. cbn [w_th] in E1. rewrite nth_error_upd_other in E1 by congruence. auto.
    + intros u y len' j Hu Hj. cbn [w_mem w_used]. destruct (Nat.eq_dec u t) as [->|Hne].
      * rewrite Hc in Hu. injection Hu as <- <-. rewrite Gt in Hj. destruct (Nat.lt_ge_cases j (got t)) as [Hold|Hnew].
        -- rewrite Sold by now right. destruct (served_bytes _ _ _ _ _ _ S t x len j Hc Hold) as [P Q]. split; [|lia].
           rewrite (nth_wr_out _ _ _ _ (x + j) Hw) by (left; lia). exact P.
        -- rewrite Snew by exact Hnew. split; [|lia]. replace (x + j) with (th_x th + (j - got t)) by lia. rewrite (nth_wr_in _ _ _ _ _ Hw) by lia.
           rewrite (nth_indep _ 0%N (dev 0)) by lia. rewrite map_nth, seq_nth by lia. reflexivity.
      * rewrite Sold by now left. rewrite (Gu u Hne) in Hj. destruct (served_bytes _ _ _ _ _ _ S u y len' j Hu Hj) as [P Q]. split; [|lia].
        rewrite (nth_wr_out _ _ _ _ (y + j) Hw); [exact P|]. rewrite Ld. pose proof (proj1 (served_all _ _ _ _ _ _ S u y len' Hu)). pose proof (Hdis u t y len' x len Hne Hu Hc). lia.
    + intros u y len' j l Hu Hjl Hl. destruct (Nat.eq_dec u t) as [->|Hne].
      * rewrite Gt in Hl. destruct (Nat.lt_ge_cases j (got t)) as [Hold|Hnew].
        -- rewrite Sold by now right. destruct (Nat.lt_ge_cases l (got t)) as [Hlo|Hln].
           ++ rewrite Sold by now right. exact (served_order _ _ _ _ _ _ S t y len' j l Hu Hjl Hlo).
           ++ rewrite Snew by exact Hln. pose proof (Hlt t j Ht Hold). lia.
        -- rewrite !Snew by lia. lia.
      * rewrite !Sold by now left. rewrite (Gu u Hne) in Hl. exact (served_order _ _ _ _ _ _ S u y len' j l Hu Hjl Hl).
    + assert (Hside : forall u j, u < length calls -> j < got' u -> (u = t /\ got t <= j /\ src' u j = w_used w + (j - got t)) \/ (j < got u /\ src' u j = src u j /\ src u j < w_used w)).
      { intros u j Hu Hj. destruct (Nat.eq_dec u t) as [->|Hne].
        - destruct (Nat.lt_ge_cases j (got t)) as [Hold|Hnew]; [right|left; auto]. rewrite Sold by now right. auto.
        - right. rewrite (Gu u Hne) in Hj. rewrite Sold by now left. auto. }
      intros u v j l Hu Hv Hj Hl Heq. destruct (Hside u j Hu Hj) as [(-> & P1 & P2)|(P1 & P2 & P3)]; destruct (Hside v l Hv Hl) as [(-> & Q1 & Q2)|(Q1 & Q2 & Q3)]; rewrite P2, Q2 in Heq; try lia.
      exact (served_once _ _ _ _ _ _ S u v j l Hu Hv P1 Q1 Heq).
    + intros p Hp. cbn [w_used] in Hp. destruct (Nat.lt_ge_cases p (w_used w)) as [Hold|Hnew].
      * destruct (served_none_lost _ _ _ _ _ _ S p Hold) as (u & j & Hu & Hj & Hs). exists u, j. split; [exact Hu|]. destruct (Nat.eq_dec u t) as [->|Hne].
        -- rewrite Sold by now right. split; [rewrite Gt; lia|exact Hs].
        -- rewrite Sold by now left. rewrite (Gu u Hne). auto.
      * exists t, (got t + (p - w_used w)). split; [exact Ht|]. rewrite Gt, Snew by lia. split; lia.
    + intros j Hj. cbn [w_mem]. rewrite (nth_wr_out _ _ _ _ j Hw).
      * apply (served_rest _ _ _ _ _ _ S). intros u y len' Hu. specialize (Hj u y len' Hu). destruct (Nat.eq_dec u t) as [->|Hne]; [rewrite Gt in Hj; lia|]. now rewrite (Gu u Hne) in Hj.
      * rewrite Ld. specialize (Hj t x len Hc). rewrite Gt in Hj. destruct Hj as [Hj|Hj]; [left|right]; [|lia]. lia.
  - exists w, got, src. split; [reflexivity|]. auto.
Qed.

Lemma start_tracked fd : tracked (start fd mem calls) (fun _ => 0).
Proof.
  split; [apply map_length|]. intros t x len Hc. eexists. split; [cbn; rewrite nth_error_map, Hc; reflexivity|]. cbn. repeat split; [lia|lia|discriminate].
Qed.
Lemma start_served fd : served dev mem calls (start fd mem calls) (fun _ => 0) (fun _ _ => 0).
Proof.
  constructor; cbn [w_used w_mem start]; intros; try lia; try reflexivity.
  split; [lia|]. intros (th & Hth & Hr). cbn in Hth. rewrite nth_error_map in Hth. destruct (nth_error calls t); [|discriminate]. injection Hth as <-. discriminate Hr.
Qed.
Lemma steps_served es : forall w got src, tracked w got -> served dev mem calls w got src ->
  exists w' got' src', steps dev w es = Ok w' /\ tracked w' got' /\ served dev mem calls w' got' src'.
Proof.
  induction es as [|e es IH]; intros w got src T S; [exists w, got, src; auto|].
  destruct (step_served w got src e T S) as (w1 & g1 & s1 & E1 & T1 & S1). cbn [steps]. rewrite E1. cbn [bind]. exact (IH w1 g1 s1 T1 S1).
Qed.
Lemma threads_safe fd es : exists w got src, steps dev (start fd mem calls) es = Ok w /\ served dev mem calls w got src.
Proof.
  destruct (steps_served es _ _ _ (start_tracked fd) (start_served fd)) as (w & got & src & A & _ & B). eauto.
Qed.
End Th.
