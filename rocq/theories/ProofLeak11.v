(** The chains of the fast core: single tree. *)
From Verif Require Import Base Lib SpecRfc ModelUtils ModelParams ModelHash ModelWots ModelCommons ModelCore ModelCoreFast ModelXmss
  ProofUtils ProofHash ProofWots ProofCommons ProofTree ProofCore SpecParams SpecApi SpecFast ModelLeak ModelLeakFast SpecLeak ProofLeak ProofLeak3 ProofLeak8 ProofLeak9.

Section Nc.
Context {E : Env} (p : xmss_params).
Lemma nc_loop_pos {S} (b : S -> leak (S * bool)) : (forall s, nc (b s)) -> forall k s, nc (lloop_pos k b s).
Proof.
  intros Hb. induction k as [q IH|q IH|]; intros s; cbn [lloop_pos]; [| |apply Hb].
  - apply nc_bind; [apply Hb|]. intros [s1 []]; [reflexivity|]. apply nc_bind; [apply IH|]. intros [s2 []]; [reflexivity|apply IH].
  - apply nc_bind; [apply IH|]. intros [s2 []]; [reflexivity|apply IH].
Qed.
Lemma nc_loopN {S} (b : S -> leak (S * bool)) : (forall s, nc (b s)) -> forall k s, nc (lloopN k b s).
Proof. intros Hb [|q] s; [reflexivity|]. now apply nc_loop_pos. Qed.
Lemma nc_load_th sk o : nc (load_th_l p sk o). Proof. unfold load_th_l. ncs. Qed.
Lemma nc_load_state sk o : nc (load_state_l p sk o). Proof. unfold load_state_l. ncs. apply nc_load_th. Qed.
Lemma nc_deser sk : nc (xmssmt_deserialize_state_l p sk). Proof. unfold xmssmt_deserialize_state_l. ncs. apply nc_load_state. Qed.
Lemma nc_ser sk ss ws : nc (xmssmt_serialize_state_l p sk ss ws). Proof. unfold xmssmt_serialize_state_l. ncs. Qed.
Lemma nc_min s t : nc (treehash_minheight_on_stack_l p s t). Proof. unfold treehash_minheight_on_stack_l. ncs. Qed.
Lemma nc_place s i h x : nc (place_node_l p s i h x). Proof. unfold place_node_l. ncs. Qed.
Lemma nc_iw g : forall idx i ps st lv o s a, nc (treehash_init_while_l p g idx i ps st lv o s a).
Proof. induction g as [|g IH]; intros; cbn [treehash_init_while_l]; ncs; try apply nc_place; try apply nc_th. apply IH. Qed.
Lemma nc_init h s a b c : nc (treehash_init_l p h s a b c).
Proof. unfold treehash_init_l. ncs; try apply nc_lf; apply nc_iw. Qed.
Lemma nc_uw u : forall nx ps s o nd nh a, nc (treehash_update_while_l p u nx ps s o nd nh a).
Proof. induction u as [|u IH]; intros; cbn [treehash_update_while_l]; ncs; try apply nc_th. apply IH. Qed.
Lemma nc_tu j s a b c : nc (treehash_update_l p j s a b c).
Proof. unfold treehash_update_l. ncs; try apply nc_lf; apply nc_uw. Qed.
Lemma nc_select s : nc (select_treehash_l p s).
Proof. unfold select_treehash_l. ncs; apply nc_min. Qed.
Lemma nc_bu s u a b c : nc (bds_treehash_update_l p s u a b c).
Proof.
  unfold bds_treehash_update_l. apply nc_bind; [|intros [[? ?] ?]; reflexivity]. apply nc_loopN. intros [s1 u1].
  apply nc_bind; [apply nc_select|]. intros [j|]; (apply nc_bind; [reflexivity|intros ?]); [|reflexivity]. apply nc_bind; [apply nc_tu|]. intros ?. reflexivity.
Qed.
Lemma nc_suw g : forall i ps s a, nc (bds_state_update_while_l p g i ps s a).
Proof. induction g as [|g IH]; intros; cbn [bds_state_update_while_l]; ncs; try apply nc_place; try apply nc_th. apply IH. Qed.
Lemma nc_su s a b c : nc (bds_state_update_l p s a b c).
Proof. unfold bds_state_update_l. ncs; try apply nc_lf; apply nc_suw. Qed.
Lemma nc_round s l a b c : nc (bds_round_l p s l a b c).
Proof. unfold bds_round_l. ncs; try apply nc_lf; apply nc_th. Qed.
Lemma nc_keypair pk sk r : nc (fast_xmss_core_keypair_l p pk sk r).
Proof. unfold fast_xmss_core_keypair_l. ncs; try apply nc_deser; try apply nc_init; apply nc_ser. Qed.
End Nc.

(** dropping a step of a run that ends well *)
Lemma ch_drop {A B} (c : leak A) (k : A -> leak B) z u : nc c -> outcome (lbind c k) = Ok z ->
  (forall y, outcome c = Ok y -> outcome (k y) = Ok z -> chains (trace (k y)) = u) -> chains (trace (lbind c k)) = u.
Proof. intros Hc Hz Hk. apply bind_inv in Hz. destruct Hz as (y & H1 & H2). apply (ch_skip c k y u H1 Hc). now apply Hk. Qed.
Lemma ch_nc {A} (c : leak A) : nc c -> chains (trace c) = [].
Proof. exact (fun H => H). Qed.

Section Refine.
Context {E : Env}.
Variable p : xmss_params.
Variable Hf : bytes -> bytes.
Hypothesis Hp : params_ok p.
Hypothesis HH : hash_total p Hf.
Notation P := (sp_of p Hf).
Notation n := (p_n p).
Notation ib := (index_bytes p).
Ltac dr L := (eapply ch_drop; [apply L|eassumption|clear; intros]).

Lemma wr_ok_inv b o d y : wr b o d = Ok y -> o + length d <= length b.
Proof. unfold wr. destruct (Nat.leb_spec (o + length d) (length b)); [auto|discriminate]. Qed.

(** the digest: what every core computes from R, root, index and message *)
Lemma digest prfk rt idx sm m sm1 r M sm2 : length rt = n -> length prfk = n -> outcome (prf_l p (ull_to_bytes 32 idx) prfk) = Ok r ->
  outcome (wr_l sm (sig_bytes p) m) = Ok sm1 -> padding_len p + 3 * n <= sig_bytes p ->
  outcome (hash_message_l p (fun _ => silent (Ok r)) rt idx sm1 (sig_bytes p - padding_len p - 3 * n) (length m)) = Ok (M, sm2) ->
  M = H_msg P (PRF P prfk (toByte idx 32)) rt idx m.
Proof.
  intros Hrt Hpk Hr W Hs Hm. pose proof (po_th p Hp) as Hth. pose proof (po_pad p Hp) as Hpad. pose proof (sig_bytes_eq p Hp) as Hsb. cbn [wr_l outcome] in W. pose proof (wr_ok_inv _ _ _ _ W) as Hl.
  rewrite lw_prf, ull_to_bytes_spec, (prf_spec p Hf HH) in Hr by (rewrite ?toByte_length; reflexivity || lia). injection Hr as <-.
  destruct (wr_spec sm (sig_bytes p) m Hl) as (s & W' & Wl & Wf & Wf2 & Ws & _). rewrite W in W'. injection W' as <-.
  assert (Hr : length (PRF P prfk (toByte idx 32)) = n) by apply (PRF_length p Hf HH).
  rewrite (lw_hash_message p _ (fun _ => Ok (PRF P prfk (toByte idx 32)))) in Hm by reflexivity.
  destruct (hash_message_spec p Hf HH (fun _ => Ok (PRF P prfk (toByte idx 32))) rt idx sm1 (sig_bytes p - padding_len p - 3 * n) (length m) (PRF P prfk (toByte idx 32)) m)
    as (s2 & H2 & _).
  { reflexivity. } { lia. } { exact Hr. } { lia. } { lia. }
  { replace (sig_bytes p - padding_len p - 3 * n + padding_len p + 3 * n) with (sig_bytes p) by lia.
    rewrite <- (firstn_skipn (sig_bytes p + length m) sm1), Wf2, <- app_assoc.
    rewrite (skipn_app_len (firstn (sig_bytes p) sm)) by (rewrite firstn_length; lia). symmetry. apply firstn_app_len. reflexivity. }
  rewrite H2 in Hm. replace (firstn n rt) with rt in Hm by (symmetry; apply firstn_all2; lia). injection Hm. auto.
Qed.

Lemma rd_is b o l x y : rd b o l = Ok x -> outcome (rd_l b o l) = Ok y -> y = x.
Proof. cbn [rd_l outcome]. congruence. Qed.
Ltac sdrop H y := eapply ch_drop; [|exact H|clear H; intros y ? H]; [try reflexivity|].

(** One tree: the only chains are those of the signature on the digest. *)
Lemma fast_chains sks prfk rt seed ext idx sm m smlen o : ib = 4 -> length sks = n -> length prfk = n -> length rt = n -> length seed = n ->
  (idx + 1 < 2 ^ N.of_nat (full_height p))%N -> (idx < 2 ^ 32)%N ->
  outcome (fast_xmss_core_sign_l p (sk_layout (toByte idx 4) sks prfk rt seed ext) sm smlen m) = Ok o ->
  chains (trace (fast_xmss_core_sign_l p (sk_layout (toByte idx 4) sks prfk rt seed ext) sm smlen m)) =
  map (chain_trace P) (wots_digits P (H_msg P (PRF P prfk (toByte idx 32)) rt idx m)).
Proof.
  intros Hib Hs1 Hs2 Hs3 Hs4 Hi Hi32 H. unfold fast_xmss_core_sign_l in *. cbv zeta in *. rewrite Hib in *.
  set (sk := sk_layout (toByte idx 4) sks prfk rt seed ext) in *. assert (Lx : length (toByte idx 4) = 4) by apply toByte_length.
  eapply ch_drop; [apply nc_deser|exact H|clear H; intros [ss ws] _ H; cbv beta iota in H |- *].
  eapply ch_drop; [reflexivity|exact H|clear H; intros x Hx H]. apply (rd_is _ _ _ (toByte idx 4)) in Hx; [|apply (rd_at _ [] (toByte idx 4) (sks ++ prfk ++ rt ++ seed ++ ext)); reflexivity || lia]. subst x.
  eapply ch_drop; [reflexivity|exact H|clear H; intros x Hx H]. cbn [silent outcome] in Hx. rewrite bytes_to_ull_spec in Hx by (rewrite ?toByte_length; auto using toByte_ok; lia).
  rewrite os2ip_toByte, N.mod_small in Hx by exact Hi32. injection Hx as <-.
  eapply ch_drop; [reflexivity|exact H|clear H; intros x Hx H]. cbn [silent outcome] in Hx. unfold shl1_ull in Hx. destruct (Nat.ltb_spec (full_height p) 64) as [_|]; [|discriminate]. injection Hx as <-.
  apply ch_iff. unfold lif in H. cbn [outcome] in H. destruct (N.leb_spec (2 ^ N.of_nat (full_height p) - 1) idx) as [?|_]; [lia|].
  unfold fast_sign_body_l in *. cbv zeta in *. rewrite Hib in *.
  eapply ch_drop; [reflexivity|exact H|clear H; intros x Hx H]. apply (rd_is _ _ _ sks) in Hx; [|apply (rd_at _ (toByte idx 4) sks (prfk ++ rt ++ seed ++ ext)); reflexivity || lia]. subst x.
  eapply ch_drop; [reflexivity|exact H|clear H; intros x Hx H]. apply (rd_is _ _ _ prfk) in Hx; [|apply (rd_at _ (toByte idx 4 ++ sks) prfk (rt ++ seed ++ ext)); [unfold sk, sk_layout; rewrite <- !app_assoc; reflexivity|rewrite app_length; lia|lia]]. subst x.
  eapply ch_drop; [reflexivity|exact H|clear H; intros x Hx H]. apply (rd_is _ _ _ seed) in Hx; [|apply (rd_at _ (toByte idx 4 ++ sks ++ prfk ++ rt) seed ext); [unfold sk, sk_layout; rewrite <- !app_assoc; reflexivity|rewrite !app_length; lia|lia]]. subst x.
  eapply ch_drop; [reflexivity|exact H|clear H; intros s _ H].
  eapply ch_drop; [reflexivity|exact H|clear H; intros sk' Hsk H]. cbn [wr_l outcome] in Hsk. rewrite ull_to_bytes_spec in Hsk.
  unfold sk, sk_layout in Hsk. rewrite (wr_at _ [] (toByte idx 4) (sks ++ prfk ++ rt ++ seed ++ ext)) in Hsk by (rewrite ?toByte_length; reflexivity || lia). injection Hsk as <-. cbn [app] in H |- *.
  set (ix' := toByte (idx + 1) 4) in *. assert (Lx' : length ix' = 4) by apply toByte_length.
  eapply ch_drop; [apply nc_prf|exact H|clear H; intros r Hr H].
  eapply ch_drop; [reflexivity|exact H|clear H; intros sm1 W H].
  eapply ch_drop; [reflexivity|exact H|clear H; intros x Hx H]. apply (rd_is _ _ _ rt) in Hx; [|apply (rd_at _ (ix' ++ sks ++ prfk) rt (seed ++ ext)); [rewrite <- !app_assoc; reflexivity|rewrite !app_length; lia|lia]]. subst x.
  apply ch_iff. unfold lif at 1 in H. cbn [outcome] in H. destruct (Nat.ltb_spec (sig_bytes p) (padding_len p + 3 * n)) as [?|Hsg]; [discriminate|].
  eapply ch_drop; [apply nc_hm; intros; reflexivity|exact H|clear H; intros [M sm2] HM H; cbv beta iota in H |- *].
  rewrite <- (digest prfk rt idx sm m sm1 r M sm2 Hs3 Hs2 Hr W Hsg HM).
  assert (HMf : length M = n /\ bytes_ok M).
  { rewrite (digest prfk rt idx sm m sm1 r M sm2 Hs3 Hs2 Hr W Hsg HM). split; [apply (Hf_length p Hf HH)|apply (Hf_bytes p Hf HH)]. }
  destruct HMf as [HMl HMb]. clear HM W Hr.
  eapply ch_drop; [reflexivity|exact H|clear H; intros sm3 _ H].
  eapply ch_drop; [reflexivity|exact H|clear H; intros sm4 _ H].
  apply bind_inv in H. destruct H as ([sig a] & H1 & H). rewrite <- (app_nil_r (map _ _)).
  eapply ch_bind; [exact H1| |].
  - eapply ws_ch; [exact Hp|exact HH|exact HMl|exact HMb|lia|exact H1].
  - cbv beta iota. change (nc ?c) with (chains (trace c) = []). clear. match goal with |- chains (trace ?c) = [] => change (nc c) end.
    ncs; try apply nc_round; try apply nc_bu; apply nc_ser.
Qed.
End Refine.
