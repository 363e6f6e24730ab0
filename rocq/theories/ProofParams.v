(** Parameter parsing: every table row is accepted with exactly its parameters, everything
    else is rejected. *)
From Coq Require Import String.
From Verif Require Import Base Lib ModelUtils ModelParams ModelFips202 ModelHash ModelCore ModelCoreFast ModelXmss SpecRfc SpecFips202
  SpecParams SpecComp ProofFipsBasic ProofFips ProofShake ProofHash.

Definition str_to_oid (mt : bool) := if mt then xmssmt_str_to_oid else xmss_str_to_oid.
Definition parse_oid (mt : bool) := if mt then xmssmt_parse_oid else xmss_parse_oid.

Definition name_table (mt : bool) : list (string * N) := map (fun r => (row_name r, r_oid r)) (rows mt).
Fixpoint lookup (t : list (string * N)) (s : string) : option N :=
  match t with [] => None | (k, v) :: t => if String.eqb s k then Some v else lookup t s end.

Lemma str_to_oid_lookup mt s : str_to_oid mt s = lookup (name_table mt) s.
Proof.
  destruct mt.
  - assert (H : name_table true = ltac:(let t := eval vm_compute in (name_table true) in exact t)) by (vm_compute; reflexivity).
    rewrite H. reflexivity.
  - assert (H : name_table false = ltac:(let t := eval vm_compute in (name_table false) in exact t)) by (vm_compute; reflexivity).
    rewrite H. reflexivity.
Qed.

Lemma lookup_in t : forall s v, lookup t s = Some v -> In (s, v) t.
Proof.
  induction t as [|[k w] t IH]; intros s v Hl; [discriminate|]. cbn in Hl.
  destruct (String.eqb_spec s k) as [->|Hne]; [left; congruence|]. right. now apply IH.
Qed.
Lemma in_lookup t : NoDup (map fst t) -> forall s v, In (s, v) t -> lookup t s = Some v.
Proof.
  induction t as [|[k w] t IH]; intros Hn s v Hi; [destruct Hi|]. cbn in *. inversion Hn as [|? ? Hk Hn']; subst.
  destruct Hi as [He|Hi].
  - injection He as -> ->. now rewrite String.eqb_refl.
  - destruct (String.eqb_spec s k) as [->|Hne]; [|now apply IH].
    exfalso. apply Hk. apply in_map_iff. now exists (k, v).
Qed.

Fixpoint nodupb {A} (eqb : A -> A -> bool) (l : list A) : bool :=
  match l with [] => true | x :: t => negb (existsb (eqb x) t) && nodupb eqb t end.
Lemma nodupb_ok {A} (eqb : A -> A -> bool) : (forall x, eqb x x = true) -> forall l, nodupb eqb l = true -> NoDup l.
Proof.
  intros Hr. induction l as [|x l IH]; intros Hb; [constructor|]. cbn in Hb. apply andb_prop in Hb. destruct Hb as [H1 H2].
  constructor; [|now apply IH]. intros Hin. apply negb_true_iff in H1.
  assert (existsb (eqb x) l = true) as He by (apply existsb_exists; exists x; split; [exact Hin|apply Hr]). congruence.
Qed.
Lemma names_nodup mt : NoDup (map row_name (rows mt)).
Proof. apply (nodupb_ok String.eqb String.eqb_refl). destruct mt; vm_compute; reflexivity. Qed.
Lemma oids_nodup mt : NoDup (map r_oid (rows mt)).
Proof. apply (nodupb_ok N.eqb N.eqb_refl). destruct mt; vm_compute; reflexivity. Qed.

Theorem str_to_oid_spec mt s oid :
  str_to_oid mt s = Some oid <-> exists r, In r (rows mt) /\ row_name r = s /\ r_oid r = oid.
Proof.
  rewrite str_to_oid_lookup. split.
  - intros Hl. apply lookup_in in Hl. unfold name_table in Hl. apply in_map_iff in Hl.
    destruct Hl as [r [He Hr]]. exists r. injection He as <- <-. auto.
  - intros [r [Hr [<- <-]]]. apply in_lookup.
    + unfold name_table. rewrite map_map. cbn. apply names_nodup.
    + unfold name_table. apply in_map_iff. now exists r.
Qed.

(** ** Rejected OIDs *)
Lemma parse_reject mt skb p0 oid : ~ In oid (map r_oid (rows mt)) -> parse_oid mt skb p0 oid = Ok None.
Proof.
  assert (Hr : forall k, In k (map r_oid (rows mt)) \/ (mt = true /\ xmssmt_parse_oid_func k = None) \/ (mt = false /\ xmss_parse_oid_func k = None)).
  { intros k. destruct mt.
    - destruct k as [|k]; [right; left; split; reflexivity|].
      do 7 (try (destruct k as [k|k|]; [..|(right; left; split; reflexivity) || (left; vm_compute; tauto)])).
      all: right; left; split; reflexivity.
    - destruct k as [|k]; [right; right; split; reflexivity|].
      do 6 (try (destruct k as [k|k|]; [..|(right; right; split; reflexivity) || (left; vm_compute; tauto)])).
      all: right; right; split; reflexivity. }
  intros Hn. destruct (Hr oid) as [H|[[-> H]|[-> H]]]; [contradiction| |].
  - unfold parse_oid, xmssmt_parse_oid. now rewrite H.
  - unfold parse_oid, xmss_parse_oid. now rewrite H.
Qed.

(** ** Accepted OIDs *)
(** all fields of the structure, as the RFC formulas over the integers; sk_bytes separately *)
Definition row_params (r : row) (skb : N) : xmss_params :=
  let P := row_sp (E := {| sha256 := fun _ => []; sha512 := fun _ => []; junk := fun _ => 0%N |}) r in
  mkParams (fn_code (r_fn r)) (N.of_nat (r_n r)) (N.of_nat (sp_pad P)) (N.of_nat (sp_w P)) (N.of_nat (sp_lgw P))
    (N.of_nat (sp_len1 P)) (N.of_nat (sp_len2 P)) (N.of_nat (sp_len P)) (N.of_nat (sp_len P) * N.of_nat (r_n r))
    (N.of_nat (r_h r)) (N.of_nat (sp_th P)) (N.of_nat (r_d r)) (N.of_nat (sp_ib P))
    (N.of_nat (sp_ib P) + N.of_nat (r_n r) + N.of_nat (r_d r) * (N.of_nat (sp_len P) + N.of_nat (sp_th P)) * N.of_nat (r_n r))
    (2 * N.of_nat (r_n r)) skb 0.

Definition sk_ref (r : row) : N :=
  let P := row_sp (E := {| sha256 := fun _ => []; sha512 := fun _ => []; junk := fun _ => 0%N |}) r in
  (N.of_nat (sp_ib P) + 4 * N.of_nat (r_n r))%N.
(** The fast core's secret key adds 2d-1 traversal states and d-1 WOTS signatures *)
Definition sk_fast (r : row) : N :=
  let P := row_sp (E := {| sha256 := fun _ => []; sha512 := fun _ => []; junk := fun _ => 0%N |}) r in
  let n := N.of_nat (r_n r) in let h := N.of_nat (sp_th P) in let d := N.of_nat (r_d r) in
  (sk_ref r + (2 * d - 1) * ((h + 1) * n + 4 + (h + 1) + h * n + h / 2 * n + h * (7 + n) + 0 + 4)
   + (d - 1) * (N.of_nat (sp_len P) * n))%N.

Lemma parse_accept_ref mt r p0 : In r (rows mt) -> parse_oid mt ref_core_sk_bytes p0 (r_oid r) = Ok (Some (row_params r (sk_ref r))).
Proof.
  intros Hr. destruct mt.
  - repeat (destruct Hr as [<-|Hr]; [vm_compute; reflexivity|]). destruct Hr.
  - repeat (destruct Hr as [<-|Hr]; [vm_compute; reflexivity|]). destruct Hr.
Qed.
Lemma parse_accept_fast mt r p0 : In r (rows mt) -> parse_oid mt fast_core_sk_bytes p0 (r_oid r) = Ok (Some (row_params r (sk_fast r))).
Proof.
  intros Hr. destruct mt.
  - repeat (destruct Hr as [<-|Hr]; [vm_compute; reflexivity|]). destruct Hr.
  - repeat (destruct Hr as [<-|Hr]; [vm_compute; reflexivity|]). destruct Hr.
Qed.

(** ** The structure meets the conditions of the proofs *)
Definition row_small (r : row) : bool :=
  (((r_n r =? 24) && match r_fn r with SHAKE_128 => false | _ => true end) || (r_n r =? 32) ||
   ((r_n r =? 64) && match r_fn r with SHAKE_128 => false | _ => true end)) &&
  (1 <=? r_d r) && (1 <=? r_h r / r_d r) && (r_h r / r_d r <=? 30) && (r_h r =? r_d r * (r_h r / r_d r)) && (r_h r <? 64).
Lemma rows_small mt r : In r (rows mt) -> row_small r = true.
Proof. revert r. apply forallb_forall. destruct mt; vm_compute; reflexivity. Qed.

Lemma row_n_fn mt r : In r (rows mt) -> (r_n r = 24 /\ r_fn r <> SHAKE_128) \/ r_n r = 32 \/ (r_n r = 64 /\ r_fn r <> SHAKE_128).
Proof.
  intros Hr. apply rows_small in Hr. unfold row_small in Hr.
  repeat (apply andb_prop in Hr; destruct Hr as [Hr ?]).
  destruct (r_fn r).
    - assert (Hc : r_n r = 24 \/ r_n r = 32 \/ r_n r = 64) by lia. destruct Hc as [?|[?|?]]; [left|right; left|right; right]; auto; split; auto; discriminate.
    - right; left. lia.
    - assert (Hc : r_n r = 24 \/ r_n r = 32 \/ r_n r = 64) by lia. destruct Hc as [?|[?|?]]; [left|right; left|right; right]; auto; split; auto; discriminate.
Qed.

Section Acc.
Variables (r : row) (skb : N).
Notation p := (row_params r skb).
Lemma row_n : p_n p = r_n r. Proof. apply Nat2N.id. Qed.
Lemma row_h : full_height p = r_h r. Proof. apply Nat2N.id. Qed.
Lemma row_dd : p_d p = r_d r. Proof. apply Nat2N.id. Qed.
Lemma row_lgw : wots_log_w p = 4. Proof. reflexivity. Qed.
Lemma row_w : wots_w p = 16. Proof. reflexivity. Qed.
Lemma row_pad : padding_len p = if r_n r =? 24 then 4 else r_n r. Proof. apply Nat2N.id. Qed.
Lemma row_sk : sk_bytes p = N.to_nat skb. Proof. reflexivity. Qed.
Lemma sp_of_p Hf : sp_of p Hf = mkSp (r_n r) 4 (if r_n r =? 24 then 4 else r_n r) (r_h r) (r_d r) Hf.
Proof. unfold sp_of. now rewrite row_n, row_lgw, row_pad, row_h, row_dd. Qed.
Lemma row_len1 Hf : wots_len1 p = sp_len1 (sp_of p Hf). Proof. rewrite sp_of_p. apply Nat2N.id. Qed.
Lemma row_len2 Hf : wots_len2 p = sp_len2 (sp_of p Hf). Proof. rewrite sp_of_p. apply Nat2N.id. Qed.
Lemma row_len Hf : wots_len p = sp_len (sp_of p Hf). Proof. rewrite sp_of_p. apply Nat2N.id. Qed.
Lemma row_th Hf : tree_height p = sp_th (sp_of p Hf). Proof. rewrite sp_of_p. apply Nat2N.id. Qed.
Lemma row_ib Hf : index_bytes p = sp_ib (sp_of p Hf). Proof. rewrite sp_of_p. apply Nat2N.id. Qed.
Lemma row_wsig : wots_sig_bytes p = wots_len p * p_n p. Proof. apply N2Nat.inj_mul. Qed.
Lemma row_sig : sig_bytes p = index_bytes p + p_n p + p_d p * (wots_len p + tree_height p) * p_n p.
Proof.
  unfold sig_bytes, index_bytes, p_n, p_d, wots_len, tree_height, row_params.
  cbn [f_sig_bytes f_index_bytes f_n f_d f_wots_len f_tree_height].
  now rewrite !N2Nat.inj_add, !N2Nat.inj_mul, !N2Nat.inj_add.
Qed.
Lemma row_pk : pk_bytes p = 2 * p_n p. Proof. apply N2Nat.inj_mul. Qed.
End Acc.
Lemma sk_ref_eq r skb : N.to_nat (sk_ref r) = index_bytes (row_params r skb) + 4 * p_n (row_params r skb).
Proof. unfold sk_ref, index_bytes, p_n, row_params. cbn [f_index_bytes f_n]. lia. Qed.

Lemma row_params_ok mt r skb : In r (rows mt) -> (sk_ref r <= skb)%N -> params_ok (row_params r skb).
Proof.
  intros Hr Hs. pose proof (row_n_fn mt r Hr) as Hn. apply rows_small in Hr. unfold row_small in Hr.
  repeat (apply andb_prop in Hr; destruct Hr as [Hr ?]).
  assert (Hh : r_h r = r_d r * (r_h r / r_d r)) by lia.
  assert (Hth : tree_height (row_params r skb) = r_h r / r_d r) by (rewrite (row_th _ _ (fun x => x)), sp_of_p; reflexivity).
  assert (Hlen1 : (8 * r_n r + 4 - 1) / 4 = 2 * r_n r) by (symmetry; apply (Nat.div_unique (8 * r_n r + 4 - 1) 4 (2 * r_n r) 3); lia).
  constructor.
  - unfold hash_supported. rewrite row_n. change (func (row_params r skb)) with (fn_code (r_fn r)).
    destruct Hn as [[Hn Hf]|[Hn|[Hn Hf]]]; [left|right; left|right; right]; (split; [exact Hn|]);
      destruct (r_fn r); try congruence; cbn; tauto.
  - rewrite row_lgw. auto.
  - reflexivity.
  - apply row_len1.
  - apply row_len2.
  - rewrite (row_len1 _ _ (fun x => x)), (row_len2 _ _ (fun x => x)), (row_len _ _ (fun x => x)). reflexivity.
  - apply row_wsig.
  - rewrite row_dd. lia.
  - lia.
  - rewrite row_h, row_dd. lia.
  - rewrite row_h. lia.
  - apply row_ib.
  - rewrite row_sig, row_wsig, row_h, Hth, row_dd, row_n. set (th := r_h r / r_d r) in *. rewrite Hh. nia.
  - rewrite row_sig, row_pad, row_dd, row_n.
    assert (Hpad : (if r_n r =? 24 then 4 else r_n r) <= r_n r) by (destruct (Nat.eqb_spec (r_n r) 24); lia).
    set (pad := if r_n r =? 24 then 4 else r_n r) in *.
    assert (Hl : 48 <= wots_len (row_params r skb)).
    { rewrite (row_len _ _ (fun x => x)), sp_of_p. unfold sp_len, sp_len1. cbn [sp_n sp_lgw]. lia. }
    assert (4 * r_n r <= r_d r * (wots_len (row_params r skb) + tree_height (row_params r skb)) * r_n r).
    { apply Nat.mul_le_mono_r. destruct (r_d r); nia. }
    lia.
  - apply row_pk.
  - rewrite <- (sk_ref_eq r skb), row_sk. lia.
Qed.

Lemma sp_of_row {E : Env} r skb : sp_of (row_params r skb) (row_hash r) = row_sp r.
Proof. apply sp_of_p. Qed.

(** ** The hash function *)
Lemma bit_val_byte x : (x < 256)%N -> bit_val (byte_bits x) = x.
Proof.
  intros Hx. assert (Ha : forallb (fun i => N.eqb (bit_val (byte_bits (N.of_nat i))) (N.of_nat i)) (seq 0 256) = true) by (vm_compute; reflexivity).
  rewrite forallb_forall in Ha. specialize (Ha (N.to_nat x)). rewrite N2Nat.id in Ha. apply N.eqb_eq, Ha, in_seq. lia.
Qed.
Lemma b2h_h2b o : bytes_ok o -> b2h (length o) (h2b o) = o.
Proof.
  induction o as [|x o IH]; intros Ho; [reflexivity|]. inversion Ho; subst. cbn [length b2h].
  change (h2b (x :: o)) with (byte_bits x ++ h2b o).
  change (firstn 8 (byte_bits x ++ h2b o)) with (byte_bits x). change (skipn 8 (byte_bits x ++ h2b o)) with (h2b o).
  rewrite bit_val_byte, IH by assumption. reflexivity.
Qed.
Lemma shake_b2h f g k : (exists o, f = Ok o /\ length o = k /\ bytes_ok o /\ h2b o = g) ->
  f = Ok (b2h k g) /\ length (b2h k g) = k /\ bytes_ok (b2h k g).
Proof. intros [o [Ho [Hl [Hb He]]]]. rewrite <- He, <- Hl, b2h_h2b by exact Hb. auto. Qed.

Lemma row_hash_total {E : Env} mt r skb : env_ok E -> In r (rows mt) -> hash_total (row_params r skb) (row_hash r).
Proof.
  intros HE Hr x. rewrite row_n. pose proof (row_n_fn mt r Hr) as Hn. destruct (HE x) as [[H2 B2] [H5 B5]].
  unfold core_hash, core_hash_rc. rewrite row_n. change (func (row_params r skb)) with (fn_code (r_fn r)).
  unfold row_hash, hash_of.
  destruct (r_fn r); cbn [fn_code].
  - destruct Hn as [[Hn _]|[Hn|[Hn _]]]; rewrite Hn; cbn [Nat.eqb andb N.eqb XMSS_SHA2 XMSS_SHAKE256 bind].
    + unfold rd. rewrite H2. cbn [Nat.leb Nat.add bind skipn]. split; [reflexivity|]. split; [rewrite firstn_length; lia|now apply bytes_ok_firstn].
    + rewrite (firstn_all2 (sha256 x)) by lia. auto.
    + auto.
  - destruct Hn as [[_ Hf]|[Hn|[_ Hf]]]; [congruence| |congruence]. rewrite Hn. cbn [Nat.eqb andb N.eqb XMSS_SHA2 XMSS_SHAKE256 XMSS_SHAKE128 Pos.eqb].
    destruct (shake_b2h _ _ 32 (shake128_fips 32 x)) as [-> [Hl Hb]]. cbn [bind]. auto.
  - destruct Hn as [[Hn _]|[Hn|[Hn _]]]; rewrite Hn; cbn [Nat.eqb andb N.eqb XMSS_SHA2 XMSS_SHAKE256 XMSS_SHAKE128 Pos.eqb].
    + destruct (shake_b2h _ _ 24 (shake256_fips 24 x)) as [-> [Hl Hb]]. cbn [bind]. auto.
    + destruct (shake_b2h _ _ 32 (shake256_fips 32 x)) as [-> [Hl Hb]]. cbn [bind]. auto.
    + destruct (shake_b2h _ _ 64 (shake256_fips 64 x)) as [-> [Hl Hb]]. cbn [bind]. auto.
Qed.
