(** Proofs about randombytes.c. *)
From Verif Require Import Base Lib ProofCore ModelRandom SpecRandom.


Lemma read_loop_ok o (HO : reads_ok o) : forall fuel t x pos xlen x' t',
  pos + N.to_nat xlen <= length x ->
  read_loop o fuel t x pos xlen = Ok (x', t') ->
  exists ks, length ks = t' - t /\ t <= t' /\
    x' = firstn pos x ++ concat (deliveries o t ks) ++ skipn (pos + N.to_nat xlen) x /\
    length (concat (deliveries o t ks)) = N.to_nat xlen /\ asked o t xlen ks.
Proof.
  induction fuel as [|f IH]; intros t x pos xlen x' t' Hp Hr; cbn [read_loop] in Hr.
  - destruct (N.eqb_spec xlen 0) as [->|]; [|discriminate]. injection Hr as <- <-. exists []. cbn. rewrite Nat.add_0_r, firstn_skipn. repeat split; auto. lia.
  - destruct (N.eqb_spec xlen 0) as [->|Hx].
    { injection Hr as <- <-. exists []. cbn. rewrite Nat.add_0_r, firstn_skipn. repeat split; auto. lia. }
    set (i := if (xlen <? 1048576)%N then xlen else 1048576%N) in *.
    assert (Hi : i = N.min xlen 1048576) by (unfold i; destruct (N.ltb_spec xlen 1048576); lia). 
    destruct (os_read o t (N.to_nat i)) as [data|] eqn:Er.
    + pose proof (HO _ _ _ Er) as Hd.
      destruct (Nat.ltb_spec (length data) 1) as [H1|H1].
      * assert (data = []) by (destruct data; [reflexivity|cbn in H1; lia]). subst data.
        destruct (IH _ _ _ _ _ _ Hp Hr) as [ks [K1 [K2 [K3 [K4 K5]]]]]. exists (N.to_nat i :: ks). cbn [deliveries asked length]. rewrite Er.
        split; [lia|]. split; [lia|]. split; [exact K3|]. split; [exact K4|]. rewrite Hi. cbn. rewrite N.sub_0_r. auto.
      * assert (Hl : length data <= N.to_nat xlen) by lia.
        rewrite wr_ok in Hr by lia. cbn [bind] in Hr.
        set (x1 := firstn pos x ++ data ++ skipn (pos + length data) x) in *.
        assert (Hx1 : length x1 = length x) by (unfold x1; rewrite !app_length, firstn_length, skipn_length; lia).
        destruct (IH (S t) x1 (pos + length data) (xlen - N.of_nat (length data))%N x' t') as [ks [K1 [K2 [K3 [K4 K5]]]]]; [rewrite Hx1; lia|exact Hr|].
        exists (N.to_nat i :: ks). cbn [deliveries asked length concat]. rewrite Er. split; [lia|]. split; [lia|]. split; [|split; [rewrite app_length; lia|rewrite Hi; auto]].
        rewrite K3. unfold x1. replace (pos + length data + N.to_nat (xlen - N.of_nat (length data))) with (pos + N.to_nat xlen) by lia.
        assert (Hf : firstn (pos + length data) (firstn pos x ++ data ++ skipn (pos + length data) x) = firstn pos x ++ data).
        { rewrite app_assoc. rewrite firstn_app_len; [reflexivity|]. rewrite app_length, firstn_length. lia. }
        rewrite Hf, <- !app_assoc. apply (f_equal (app (firstn pos x))), (f_equal (app data)), f_equal.
        rewrite app_assoc. replace (pos + N.to_nat xlen) with ((N.to_nat xlen - length data) + (pos + length data)) by lia.
        rewrite <- skipn_skipn, skipn_app_len by (rewrite app_length, firstn_length; lia). now rewrite skipn_skipn.
    + destruct (IH _ _ _ _ _ _ Hp Hr) as [ks [K1 [K2 [K3 [K4 K5]]]]]. exists (N.to_nat i :: ks). cbn [deliveries asked length]. rewrite Er.
      split; [lia|]. split; [lia|]. split; [exact K3|]. split; [exact K4|]. rewrite Hi. cbn. rewrite N.sub_0_r. auto.
Qed.

Lemma read_loop_no_ub o (HO : reads_ok o) : forall fuel t x pos xlen, pos + N.to_nat xlen <= length x -> read_loop o fuel t x pos xlen <> UB.
Proof.
  induction fuel as [|f IH]; intros t x pos xlen Hp; cbn [read_loop]; (destruct (N.eqb_spec xlen 0) as [->|Hx]; [discriminate|]); [discriminate|].
  set (i := if (xlen <? 1048576)%N then xlen else 1048576%N).
  assert (Hi : (i <= xlen)%N) by (unfold i; destruct (N.ltb_spec xlen 1048576); lia).
  destruct (os_read o t (N.to_nat i)) as [data|] eqn:Er; [|now apply IH]. pose proof (HO _ _ _ Er) as Hd.
  destruct (Nat.ltb_spec (length data) 1) as [H1|H1]; [now apply IH|].
  rewrite wr_ok by lia. cbn [bind]. apply IH. rewrite !app_length, firstn_length, skipn_length. lia.
Qed.

Lemma read_loop_terminates o (HO : reads_ok o) (HS : eventually_serves o) : forall m xlen t x pos, (xlen < N.of_nat m)%N -> pos + N.to_nat xlen <= length x ->
  exists fuel, forall f, fuel <= f -> exists r, read_loop o f t x pos xlen = Ok r.
Proof.
  induction m as [|m IH]; intros xlen t x pos Hm Hp; [lia|].
  destruct (N.eqb_spec xlen 0) as [->|Hx]; [exists 0; intros [|f] _; cbn; eauto|].
  set (i := if (xlen <? 1048576)%N then xlen else 1048576%N).
  assert (Hi : (0 < i <= xlen)%N) by (unfold i; destruct (N.ltb_spec xlen 1048576); lia).
  destruct (proj2 HS t (N.to_nat i)) as [t' [d [Ht [Hd Hl]]]]; [lia|].
  remember (t' - t) as k eqn:Hk. revert t Ht Hk. induction k as [|k IHk]; intros t Ht Hk.
  - assert (t' = t) by lia. subst t'. pose proof (HO _ _ _ Hd) as Hd2.
    destruct (IH (xlen - N.of_nat (length d))%N (S t) (firstn pos x ++ d ++ skipn (pos + length d) x) (pos + length d)) as [fuel Hf]; [lia|rewrite !app_length, firstn_length, skipn_length; lia|].
    exists (S fuel). intros [|f] Hle; [lia|]. cbn [read_loop]. destruct (N.eqb_spec xlen 0); [lia|]. fold i. rewrite Hd.
    destruct (Nat.ltb_spec (length d) 1); [lia|]. rewrite wr_ok by lia. cbn [bind]. apply Hf. lia.
  - destruct (os_read o t (N.to_nat i)) as [d'|] eqn:Er.
    + pose proof (HO _ _ _ Er) as Hd2. destruct (Nat.ltb_spec (length d') 1) as [H1|H1].
      * destruct (IHk (S t)) as [fuel Hf]; [lia|lia|]. exists (S fuel). intros [|f] Hle; [lia|]. cbn [read_loop]. destruct (N.eqb_spec xlen 0); [lia|]. fold i. rewrite Er.
        destruct (Nat.ltb_spec (length d') 1); [|lia]. apply Hf. lia.
      * destruct (IH (xlen - N.of_nat (length d'))%N (S t) (firstn pos x ++ d' ++ skipn (pos + length d') x) (pos + length d')) as [fuel Hf]; [lia|rewrite !app_length, firstn_length, skipn_length; lia|].
        exists (S fuel). intros [|f] Hle; [lia|]. cbn [read_loop]. destruct (N.eqb_spec xlen 0); [lia|]. fold i. rewrite Er.
        destruct (Nat.ltb_spec (length d') 1); [lia|]. rewrite wr_ok by lia. cbn [bind]. apply Hf. lia.
    + destruct (IHk (S t)) as [fuel Hf]; [lia|lia|]. exists (S fuel). intros [|f] Hle; [lia|]. cbn [read_loop]. destruct (N.eqb_spec xlen 0); [lia|]. fold i. rewrite Er. apply Hf. lia.
Qed.

Lemma open_loop_terminates o : (exists t, open_ok o t = true) -> exists fuel, forall f, fuel <= f -> exists r, open_loop o f 0 = Ok r.
Proof.
  intros [t Ht]. exists (S t). intros f Hf.
  assert (H : forall k s f, s + k = t -> k < f -> exists r, open_loop o f s = Ok r).
  { induction k as [|k IH]; intros s [|g] Hs Hg; try lia; cbn [open_loop].
    - replace s with t by lia. rewrite Ht. eauto.
    - destruct (open_ok o s); [eauto|]. apply IH; lia. }
  apply (H t 0); lia.
Qed.
Lemma open_loop_no_ub o : forall f t, open_loop o f t <> UB.
Proof. induction f as [|f IH]; intros t; cbn; [discriminate|]. destruct (open_ok o t); [discriminate|apply IH]. Qed.
