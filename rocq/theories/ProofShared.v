From Verif Require Import Base Lib ModelUtils ModelParams ModelHash ModelCommons ModelCore ModelCoreFast ModelXmss ModelUi ModelShared SpecRfc SpecParams SpecApi SpecComp SpecFast SpecUi SpecTools SpecReuse ProofUtils ProofHash ProofWots ProofTree ProofCore ProofParams ProofApi ProofHistory ProofMain ProofUi ProofUi2 ProofUi3 ProofUi4 ProofUi5 ProofReuse.
From Verif Require ProofForge2.
From Coq Require Import String.
Local Open Scope nat_scope.
Local Open Scope list_scope.

Section Shared.
Context {E : Env}.
Variables (mt : bool) (core : core).
Lemma sr_trans s0 s1 s2 : shared_reach mt core s0 s1 -> shared_reach mt core s1 s2 -> shared_reach mt core s0 s2.
Proof. intros H1 H2. induction H2; [exact H1|]. eapply sr_step; eassumption. Qed.
(** what one process can do alone, it can do in company *)
Lemma shared_of_disk f kb o ob t f' kb' o' ob' t' : disk_reach (mkDisk f kb o ob t) (mkDisk f' kb' o' ob' t') -> forall js p,
  nth_error js p = Some (Running kb o ob t) -> shared_reach mt core (f, js) (f', upd js p (Running kb' o' ob' t')).
Proof.
  intros Hd. remember (mkDisk f' kb' o' ob' t') as d' eqn:Ed. revert f' kb' o' ob' t' Ed. induction Hd as [|d1 d2 Hd IH Hs]; intros f' kb' o' ob' t' Ed js p Hp.
  - injection Ed as <- <- <- <- <-. replace (upd js p (Running kb o ob t)) with js; [constructor|]. clear - Hp. revert p Hp. induction js as [|x js IH]; intros [|p] Hp; cbn in *; try discriminate; [congruence|]. now rewrite <- IH.
  - destruct d1 as [f1 kb1 o1 ob1 t1]. subst d2. eapply sr_step; [apply (IH f1 kb1 o1 ob1 t1 eq_refl js p Hp)|].
    replace (upd js p (Running kb' o' ob' t')) with (upd (upd js p (Running kb1 o1 ob1 t1)) p (Running kb' o' ob' t')).
    + eapply sh_io; [|exact Hs]. apply nth_error_upd_same, nth_error_Some. congruence.
    + clear. revert p. induction js as [|x js IH]; intros [|p]; cbn; try reflexivity. now rewrite IH.
Qed.
Lemma upd_twice {A} (l : list A) : forall p x y, upd (upd l p x) p y = upd l p y.
Proof. induction l as [|z l IH]; intros [|p] x y; cbn; try reflexivity. now rewrite IH. Qed.
(** one whole run while the others wait *)
Lemma shared_run f js p m u f' out : nth_error js p = Some (Waiting m) -> ui_sign mt core true (Some f) (Some m) = Ok u -> completed f u f' out ->
  shared_reach mt core (f, js) (f', upd js p (Exited out)).
Proof.
  intros Hp Hu Hc. eapply sr_trans; [eapply sr_step; [constructor|eapply sh_start; eassumption]|].
  rewrite <- (upd_twice js p (Running [] [] [] (ui_acts u)) (Exited out)). apply (shared_of_disk _ _ _ _ _ _ _ _ _ _ Hc). apply nth_error_upd_same, nth_error_Some. congruence.
Qed.
End Shared.

Section Tool.
Context {E : Env}.
Hypothesis HE : env_ok E.
Variables (mt : bool) (r : row).
Hypothesis Hr : In r (rows mt).
Notation P := (row_sp r).
Variables (core : core) (lim : N) (size : nat).
Hypothesis Hs : signer r core lim size.
Variable St : bytes -> bytes -> bytes -> bytes -> N -> bytes -> Prop.
Hypothesis HL : live mt r core lim size St.
Variables a b ct d : bytes.
Hypothesis Hf : fields r a b ct d.
Hypothesis Hct : ct = mt_root P a d.
Notation pk := (public_key r ct d).

(** what a run writes does not depend on what has happened to the file since it was read *)
Lemma late_write i sk rest m : St a b ct d i sk -> (i + 1 < lim)%N ->
  exists u sk', ui_sign mt core true (Some (pk ++ sk ++ rest)) (Some m) = Ok u /\ ui_exit u = 0%Z /\ St a b ct d (i + 1)%N sk' /\
    forall j skj, St a b ct d j skj -> completed (pk ++ skj ++ rest) u (pk ++ sk' ++ rest) (mt_sign P a b ct d i m ++ m).
Proof.
  intros HS Hi. destruct (signer_acc mt r Hr core lim size Hs) as (Hacc & skb & A1 & A2 & A3 & A4).
  destruct (live_shape _ _ _ _ _ _ HL _ _ _ _ _ _ Hf HS) as (Ls & ext & Es).
  destruct (live_step _ _ _ _ _ _ HL a b ct d i sk (uninit (sig_size r + List.length m)) (N.to_nat (junk 0)) m Hf HS Hi) as (sk' & HS' & Hsg); [rewrite uninit_length; lia|].
  destruct (live_shape _ _ _ _ _ _ HL _ _ _ _ _ _ Hf HS') as (Ls' & ext' & Es').
  assert (O4 : forall j e, firstn 4 (secret_key r j a b ct d ++ e) = toByte (r_oid r) 4).
  { intros j e. unfold secret_key. rewrite <- app_assoc. apply firstn_app_len. now rewrite toByte_length. }
  pose proof (tool_eq mt core r r size skb pk rest Hr Hr Hacc A1 A2 A3 (pk_is_key r a b ct d Hf) sk m Ls ltac:(rewrite Es; apply O4)) as Hu.
  unfold tool_call in Hu. rewrite Hsg in Hu. cbn [bind so_sk so_sm so_smlen] in Hu.
  assert (R1 : rd sk' 4 size = Ok (skipn 4 sk')).
  { unfold rd. destruct (Nat.leb_spec (4 + size) (List.length sk')) as [_|Hx]; [|lia]. f_equal. apply firstn_all2. rewrite skipn_length. lia. }
  set (sg := mt_sign P a b ct d i m) in *. assert (Lsg : List.length sg = sig_size r) by (apply (mt_sign_len HE mt r Hr)).
  assert (R2 : rd (sg ++ m ++ skipn (sig_size r + List.length m) (uninit (sig_size r + List.length m))) 0 (sig_size r + List.length m) = Ok (sg ++ m)).
  { unfold rd. rewrite skipn_O. rewrite !app_length. destruct (Nat.leb_spec (0 + (sig_size r + List.length m)) (List.length sg + (List.length m + List.length (skipn (sig_size r + List.length m) (uninit (sig_size r + List.length m)))))) as [_|Hx]; [|lia].
    f_equal. rewrite app_assoc. apply firstn_app_len. rewrite app_length. lia. }
  rewrite R1, R2 in Hu. cbn [bind] in Hu. eexists _, sk'. split; [exact Hu|]. split; [reflexivity|]. split; [exact HS'|].
  intros j skj HSj. destruct (live_shape _ _ _ _ _ _ HL _ _ _ _ _ _ Hf HSj) as (Lj & extj & Ej).
  assert (Hb : List.length pk + 4 + List.length (skipn 4 sk') <= List.length (pk ++ skj ++ rest)) by (rewrite !app_length, skipn_length; lia).
  destruct (flush_reach (pk ++ skj ++ rest) (List.length pk + 4) (skipn 4 sk') (sg ++ m) Hb) as [_ F2].
  assert (Et : torn (pk ++ skj ++ rest) (List.length pk + 4) (skipn 4 sk') (List.length (skipn 4 sk')) = pk ++ sk' ++ rest).
  { unfold torn. rewrite firstn_app_2, (firstn_all (skipn 4 sk')). rewrite firstn_app. replace (4 - List.length skj) with 0 by lia. rewrite firstn_O, app_nil_r.
    replace (firstn 4 skj) with (firstn 4 sk') by (rewrite Ej, Es', !O4; reflexivity).
    rewrite <- app_assoc. f_equal. rewrite app_assoc, firstn_skipn. f_equal. rewrite skipn_length, app_assoc. apply skipn_app_len. rewrite app_length. lia. }
  rewrite Et in F2. exact F2.
Qed.

(** completed runs one after the other, as jobs *)
Lemma jobs_run rest : forall ms i sk pre post, St a b ct d i sk -> (i + N.of_nat (List.length ms) < lim)%N ->
  exists sk' outs, St a b ct d (i + N.of_nat (List.length ms))%N sk' /\ session mt core (pk ++ sk ++ rest) ms (pk ++ sk' ++ rest) outs /\ List.length outs = List.length ms /\
    (forall j m, nth_error ms j = Some m -> nth_error outs j = Some (mt_sign P a b ct d (i + N.of_nat j) m ++ m)) /\
    shared_reach mt core (pk ++ sk ++ rest, pre ++ map Waiting ms ++ post) (pk ++ sk' ++ rest, pre ++ map Exited outs ++ post).
Proof.
  induction ms as [|m ms IH]; intros i sk pre post HS Hi.
  - exists sk, []. cbn [List.length N.of_nat map app]. rewrite N.add_0_r. split; [exact HS|]. split; [constructor|]. split; [reflexivity|]. split; [intros [|j] m Hm; discriminate|constructor].
  - cbn [List.length] in Hi. destruct (live_tool HE mt r Hr core lim size Hs St HL a b ct d Hf i sk rest m HS ltac:(lia)) as (u & sk1 & Hu & Hx & HS1 & Hcomp & _).
    destruct (IH (i + 1)%N sk1 (pre ++ [Exited (mt_sign P a b ct d i m ++ m)]) post HS1 ltac:(lia)) as (sk' & outs & HS' & Hses & Hlen & Hall & Hsh).
    exists sk', ((mt_sign P a b ct d i m ++ m) :: outs). split; [cbn [List.length]; replace (i + N.of_nat (S (List.length ms)))%N with (i + 1 + N.of_nat (List.length ms))%N by lia; exact HS'|].
    split; [econstructor; eassumption|]. split; [cbn; lia|]. split.
    + intros [|j] m' Hm; cbn in Hm.
      * injection Hm as <-. cbn. rewrite N.add_0_r. reflexivity.
      * cbn [nth_error]. rewrite (Hall j m' Hm). do 3 f_equal. lia.
    + rewrite <- !app_assoc in Hsh. cbn [app] in Hsh. eapply sr_trans; [|exact Hsh].
      assert (Hp : nth_error (pre ++ map Waiting (m :: ms) ++ post) (List.length pre) = Some (Waiting m)) by (rewrite nth_error_app2, Nat.sub_diag by lia; reflexivity).
      pose proof (shared_run mt core (pk ++ sk ++ rest) _ _ m u _ _ Hp Hu Hcomp) as Hsr. cbn [map app] in Hsr. rewrite upd_app_mid in Hsr by reflexivity. exact Hsr.
Qed.

Lemma rollback rest i sk m0 ms : St a b ct d i sk -> (i + N.of_nat (List.length ms) < lim)%N -> (i + 1 < lim)%N ->
  exists sk1 outs, St a b ct d (i + 1)%N sk1 /\ session mt core (pk ++ sk ++ rest) [m0] (pk ++ sk1 ++ rest) [mt_sign P a b ct d i m0 ++ m0] /\ List.length outs = List.length ms /\
    (forall j m, nth_error ms j = Some m -> nth_error outs j = Some (mt_sign P a b ct d (i + N.of_nat j) m ++ m)) /\
    shared_reach mt core (pk ++ sk ++ rest, Waiting m0 :: map Waiting ms) (pk ++ sk1 ++ rest, Exited (mt_sign P a b ct d i m0 ++ m0) :: map Exited outs).
Proof.
  intros HS Hi Hi1. destruct (late_write i sk rest m0 HS Hi1) as (u & sk1 & Hu & Hx & HS1 & Hlate).
  destruct (jobs_run rest ms i sk [Running [] [] [] (ui_acts u)] [] HS Hi) as (sk2 & outs & HS2 & _ & Hlen & Hall & Hsh).
  exists sk1, outs. split; [exact HS1|]. split; [econstructor; [exact Hu|exact Hx|exact (Hlate i sk HS)|constructor]|]. split; [exact Hlen|]. split; [exact Hall|].
  eapply sr_trans; [eapply sr_step; [apply sr_refl|exact (sh_start mt core (pk ++ sk ++ rest) (Waiting m0 :: map Waiting ms) 0 m0 u eq_refl Hu)]|]. cbn [upd]. rewrite !app_nil_r in Hsh. eapply sr_trans; [exact Hsh|].
  exact (shared_of_disk mt core _ _ _ _ _ _ _ _ _ _ (Hlate _ sk2 HS2) (Running [] [] [] (ui_acts u) :: map Exited outs) 0 eq_refl).
Qed.
End Tool.

Lemma Forall2_of_nth {A B} (R : A -> B -> Prop) : forall l l', List.length l = List.length l' -> (forall j x y, nth_error l j = Some x -> nth_error l' j = Some y -> R x y) -> Forall2 R l l'.
Proof.
  induction l as [|x l IH]; intros [|y l'] Hl Hn; try discriminate; constructor; [exact (Hn 0 x y eq_refl eq_refl)|]. apply IH; [now injection Hl|]. intros j x' y'. exact (Hn (S j) x' y').
Qed.

Lemma tools_overlap {E : Env} (HE : env_ok E) mt r core lim size rnd u kf ms kf1 outs0 c m0 ms' : In r (rows mt) -> signer r core lim size ->
  (forall i, (rnd i < 256)%N) -> bytes_ok (uninit (4 + size)) -> a_core c ->
  ui_keypair mt core (Some (row_name r)) rnd = Ok u -> completed [] u [] kf -> session mt core kf ms kf1 outs0 ->
  (N.of_nat (List.length ms) + N.of_nat (List.length ms') < lim)%N -> (N.of_nat (List.length ms) + 1 < lim)%N ->
  Forall bytes_ok ms -> bytes_ok m0 -> Forall bytes_ok ms' ->
  let i := N.of_nat (List.length ms) in let pk := firstn (4 + pk_size r) kf in
  exists kf' o0 outs, shared_reach mt core (kf1, Waiting m0 :: map Waiting ms') (kf', Exited o0 :: map Exited outs) /\
    session mt core kf1 [m0] kf' [o0] /\ sm_index r o0 = i /\
    (forall j out, nth_error outs j = Some out -> sm_index r out = (i + N.of_nat j)%N) /\
    Forall2 (fun m out => skipn (sig_size r) out = m /\ ui_open mt c true (Some kf) (Some out) = Ok (0%Z, VerificationSucceeded)) (m0 :: ms') (o0 :: outs) /\
    (forall o1 R m, nth_error outs 0 = Some o1 -> List.length R = r_n r -> can_forge r pk o0 o1 R m ->
       let out := forge r pk o0 o1 R m in skipn (sig_size r) out = m /\ ui_open mt c true (Some kf) (Some out) = Ok (0%Z, VerificationSucceeded)).
Proof.
  intros Hr Hs Hb Hj Hc Hu Hk Hses Hl Hl1 Bms Bm0 Bms' i pk. destruct (signer_live HE mt r Hr core lim size Hs) as [St HL].
  destruct (tool_key mt r Hr core lim size St rnd Hs HL Hb Hj) as (u' & a & b & ct & d & sk & Hu' & _ & Hf & Hct & _ & HS & _ & Hun).
  assert (u' = u) by congruence. subst u'. pose proof (Hun kf Hk) as Ekf. subst kf.
  assert (Hlim : (lim <= 2 ^ N.of_nat (r_h r))%N) by (eapply ProofForge2.limit_le; eassumption).
  assert (Epk : pk = public_key r ct d). { unfold pk. apply firstn_app_len. pose proof (pk_is_key r a b ct d Hf) as [Q _]. now rewrite Q. }
  destruct (live_session HE mt r Hr core lim size Hs St HL a b ct d Hf Hct c [] Hc ms 0%N sk [] HS ltac:(lia) Bms) as (sk1 & outs1 & HS1 & Hses1 & _).
  rewrite app_nil_r in Hses1. rewrite N.add_0_l in HS1. fold i in HS1.
  assert (Ekf1 : kf1 = public_key r ct d ++ sk1).
  { destruct (live_session_det HE mt r Hr core lim size Hs St HL a b ct d Hf ms 0%N sk [] kf1 outs0 (public_key r ct d ++ sk1 ++ []) outs1 HS ltac:(lia)) as [E1 _]; rewrite ?app_nil_r in *; assumption. }
  subst kf1.
  destruct (rollback HE mt r Hr core lim size Hs St HL a b ct d Hf [] i sk1 m0 ms' HS1 Hl Hl1) as (sk2 & outs & HS2 & Hs2 & Hlen & Hall & Hsh). rewrite !app_nil_r in Hs2, Hsh.
  exists (public_key r ct d ++ sk2), (mt_sign (row_sp r) a b ct d i m0 ++ m0), outs. split; [exact Hsh|]. split; [exact Hs2|].
  assert (Hix : forall j m, (j < 2 ^ N.of_nat (r_h r))%N -> sm_index r (mt_sign (row_sp r) a b ct d j m ++ m) = j) by (intros j m Hj'; apply (sm_parts HE mt r Hr a b ct d Hf j m Hj')).
  assert (Hopen : forall j m, (j < 2 ^ N.of_nat (r_h r))%N -> bytes_ok m -> skipn (sig_size r) (mt_sign (row_sp r) a b ct d j m ++ m) = m /\
    ui_open mt c true (Some (public_key r ct d ++ sk)) (Some (mt_sign (row_sp r) a b ct d j m ++ m)) = Ok (0%Z, VerificationSucceeded)).
  { intros j m Hj' Bm. exact (honest_tool HE mt r Hr a b ct d Hf Hct c j m sk Hc Hj' Bm). }
  split; [apply Hix; lia|]. split.
  { intros j out Ho. assert (Hlt : j < List.length ms') by (rewrite <- Hlen; apply nth_error_Some; congruence).
    destruct (nth_error ms' j) as [m|] eqn:Hm; [|apply nth_error_None in Hm; lia]. rewrite (Hall j m Hm) in Ho. injection Ho as <-. apply Hix. lia. }
  split.
  { constructor; [apply Hopen; [lia|exact Bm0]|]. apply Forall2_of_nth; [symmetry; exact Hlen|]. intros j m out Hm Ho. rewrite (Hall j m Hm) in Ho. injection Ho as <-. apply Hopen.
    - assert (Hlt : j < List.length ms') by (apply nth_error_Some; congruence). lia.
    - exact (proj1 (Forall_forall _ _) Bms' m (nth_error_In _ _ Hm)). }
  intros o1 R m Ho LR Hcf. destruct ms' as [|m1 ms']; [destruct outs; [discriminate Ho|discriminate Hlen]|]. rewrite (Hall 0 m1 eq_refl) in Ho. injection Ho as <-. cbn [N.of_nat] in Hcf |- *. rewrite N.add_0_r in Hcf |- *. rewrite Epk in *.
  pose proof (forge_is HE mt r Hr a b ct d Hf i m0 m1 R m ltac:(lia) Hcf) as Hfo. cbv zeta in Hfo. cbv zeta. split; [rewrite Hfo; apply skipn_app_len; now rewrite (sig_with_len HE mt r Hr a b ct d)|].
  destruct (forge_opens HE mt r Hr a b ct d Hf Hct c i m0 m1 R m (uninit (List.length (forge r (public_key r ct d) (mt_sign (row_sp r) a b ct d i m0 ++ m0) (mt_sign (row_sp r) a b ct d i m1 ++ m1) R m))) (N.to_nat (junk 0)) Hc ltac:(lia) LR Hcf) as (oo & Hoo & Hrc & _); [rewrite uninit_length; lia|].
  rewrite (open_tool mt r c (public_key r ct d) sk _ _ _ Hr Hc (pk_is_key r a b ct d Hf) eq_refl eq_refl oo Hoo), Hrc. reflexivity.
Qed.
