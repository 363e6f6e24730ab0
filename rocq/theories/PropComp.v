(** Property theorems about single components: encodings, parameters, WOTS+, trees, hash
    functions.  [c] ranges over every hand-made parameter choice [custom_ok] (which includes
    all standard sets, [C14_standard_sets]), [p] over what initialisation makes of it. *)
From Coq Require Import String.
From Verif Require Import Base Lib ModelUtils ModelParams ModelFips202 ModelHash ModelWots ModelCommons ModelCore ModelCoreFast ModelXmss
  SpecRfc SpecFips202 SpecParams SpecApi SpecComp ProofUtils ProofFipsBasic ProofFips ProofShake ProofHash ProofCore ProofParams ProofComp ProofComp2 ProofToy ProofMain3.

(** a non-trivial parameter choice: SHA2, n = 32, w = 4, 12 levels in 3 layers *)
Definition ex_custom : custom := mkCustom SHA2 32 2 32 12 3.
Definition ex_p0 : xmss_params := mkParams 0 32 32 4 77 77 77 77 77 12 77 3 77 77 77 77 0.
Definition ex_p : xmss_params := mkParams 0 32 32 4 2 128 5 133 4256 12 4 3 2 13186 64 130 0.
Example ex_custom_ok : custom_ok ex_custom.
Proof. split; [right; now left|]. repeat split; cbn; auto; lia. Qed.
Example ex_configured : configured ex_custom ex_p.
Proof. exists ex_p0. split; [repeat split|]. left. vm_compute. reflexivity. Qed.
(** the same with w = 256 *)
Definition ex_custom8 : custom := mkCustom SHA2 32 8 32 12 3.
Example ex_custom8_ok : custom_ok ex_custom8 /\ exists p, configured ex_custom8 p.
Proof.
  split; [split; [right; now left|]; repeat split; cbn; auto; lia|].
  eexists. exists (mkParams 0 32 32 256 77 77 77 77 77 12 77 3 77 77 77 77 0). split; [repeat split|]. left. vm_compute. reflexivity.
Qed.
Definition ex_addr : addr := mkAddr 1 0 5 0 3 99 98 97.
Definition ex_addr2 : addr := mkAddr 1 0 5 0 3 0 11 4294967295.
Example ex_addrs : addr_ok ex_addr /\ addr_ok ex_addr2 /\ same_key ex_addr ex_addr2 /\ a3 ex_addr = 0%N.
Proof. repeat split. Qed.
Example ex_msgs : length (repeat 7%N 32) = 32 /\ bytes_ok (repeat 7%N 32) /\ length (repeat 8%N 32) = 32 /\ bytes_ok (repeat 8%N 32) /\ repeat 7%N 32 <> repeat 8%N 32.
Proof. repeat split; try (apply Forall_forall; intros x Hx; apply repeat_spec in Hx; subst; reflexivity). vm_compute. discriminate. Qed.

(** C12. Integer/byte conversions. *)
Theorem C12_decode_encode : forall k x, k <= 8 -> bytes_to_ull (ull_to_bytes k x) = Ok (x mod 256 ^ N.of_nat k)%N.
Proof. exact decode_encode. Qed.
Print Assumptions C12_decode_encode.
Theorem C12_encode_decode : forall b, length b <= 8 -> bytes_ok b ->
  exists v, bytes_to_ull b = Ok v /\ (v < 256 ^ N.of_nat (length b))%N /\ ull_to_bytes (length b) v = b.
Proof. exact encode_decode. Qed.
Print Assumptions C12_encode_decode.
Theorem C12_encode_injective : forall k x y, (x < 256 ^ N.of_nat k -> y < 256 ^ N.of_nat k -> ull_to_bytes k x = ull_to_bytes k y -> x = y)%N.
Proof. exact encode_inj. Qed.
Print Assumptions C12_encode_injective.
Theorem C12_encode_preserves_order : forall k x y, (x < 256 ^ N.of_nat k -> y < 256 ^ N.of_nat k ->
  (x < y <-> lex_lt (ull_to_bytes k x) (ull_to_bytes k y)))%N.
Proof. exact encode_order. Qed.
Print Assumptions C12_encode_preserves_order.
(** more than 8 bytes would shift by 64 bits or more *)
Theorem C12_decode_too_long : forall b, 8 < length b -> bytes_to_ull b = UB.
Proof. exact bytes_to_ull_long. Qed.
Print Assumptions C12_decode_too_long.
Example C12_applies : bytes_to_ull (ull_to_bytes 5 1099511627777) = Ok 1%N /\ lex_lt (ull_to_bytes 3 255) (ull_to_bytes 3 256).
Proof. split; [reflexivity|]. apply C12_encode_preserves_order; reflexivity. Qed.

(** C13. Names and OIDs. *)
Theorem C13_names : forall mt s oid,
  str_to_oid mt s = Some oid <-> exists r, In r (rows mt) /\ row_name r = s /\ r_oid r = oid.
Proof. exact str_to_oid_spec. Qed.
Print Assumptions C13_names.
Theorem C13_oids : forall mt r p0, In r (rows mt) ->
  exists pr pf, parse_oid mt ref_core_sk_bytes p0 (r_oid r) = Ok (Some pr) /\ parse_oid mt fast_core_sk_bytes p0 (r_oid r) = Ok (Some pf) /\
    forall p, p = pr \/ p = pf -> func p = fn_code (r_fn r) /\ p_n p = r_n r /\ full_height p = r_h r /\ p_d p = r_d r /\ wots_w p = 16 /\ bds_k p = 0.
Proof.
  intros mt r p0 Hr. exists (row_params r (sk_ref r)), (row_params r (sk_fast r)). split; [now apply parse_accept_ref|]. split; [now apply parse_accept_fast|].
  intros p [->| ->]; (split; [reflexivity|split; [apply row_n|split; [apply row_h|split; [apply row_dd|split; reflexivity]]]]).
Qed.
Print Assumptions C13_oids.
Theorem C13_distinct : forall mt r1 r2, In r1 (rows mt) -> In r2 (rows mt) -> r1 <> r2 -> row_name r1 <> row_name r2 /\ r_oid r1 <> r_oid r2.
Proof.
  intros mt r1 r2 H1 H2 Hn. split; intros He; apply Hn.
  - eapply (NoDup_map_inj row_name (rows mt)); eauto. apply names_nodup.
  - eapply (NoDup_map_inj r_oid (rows mt)); eauto. apply oids_nodup.
Qed.
Print Assumptions C13_distinct.
Theorem C13_unknown_oid : forall mt skb p0 oid, ~ In oid (map r_oid (rows mt)) -> parse_oid mt skb p0 oid = Ok None.
Proof. exact parse_reject. Qed.
Print Assumptions C13_unknown_oid.
Example C13_applies : str_to_oid true "XMSSMT-SHAKE256_60/12_192" = Some 56%N /\ str_to_oid true "XMSSMT-SHAKE256_60/12_193" = None /\
  In (mkRow true 56 "SHAKE256" SHAKE_256 24 60 12) (rows true).
Proof. split; [reflexivity|]. split; [reflexivity|]. vm_compute. tauto. Qed.

(** C14. Derived sizes, as integers, for every choice. *)
Theorem C14_derived_sizes : forall (E : Env) c p0 p, custom_ok c -> inputs c p0 ->
  xmss_xmssmt_initialize_params ref_core_sk_bytes p0 = Ok (0%Z, p) \/
  (xmss_xmssmt_initialize_params fast_core_sk_bytes p0 = Ok (0%Z, p) /\ bds_k p0 <= cu_h c / cu_d c /\ (fast_sk_size (custom_sp c) (bds_k p0) < 2 ^ 32)%N) ->
  let P := custom_sp c in
  wots_log_w p = cu_lgw c /\ wots_len1 p = sp_len1 P /\ wots_len2 p = sp_len2 P /\ wots_len p = sp_len P /\
  wots_sig_bytes p = sp_len P * cu_n c /\ tree_height p = sp_th P /\ full_height p = p_d p * tree_height p /\
  index_bytes p = sp_ib P /\ sig_bytes p = sp_sig_bytes P /\ pk_bytes p = 2 * cu_n c /\
  (xmss_xmssmt_initialize_params ref_core_sk_bytes p0 = Ok (0%Z, p) -> sk_bytes p = sp_ib P + 4 * cu_n c) /\
  (xmss_xmssmt_initialize_params fast_core_sk_bytes p0 = Ok (0%Z, p) -> bds_k p0 <= cu_h c / cu_d c -> (fast_sk_size P (bds_k p0) < 2 ^ 32)%N ->
     f_sk_bytes p = fast_sk_size P (bds_k p0)) /\
  inputs c p /\ bds_k p = bds_k p0.
Proof. exact (@derived_sizes). Qed.
Print Assumptions C14_derived_sizes.
(** initialisation succeeds for every choice *)
Theorem C14_initialisation_succeeds : forall c p0 csk, custom_ok c -> inputs c p0 -> exists p, xmss_xmssmt_initialize_params csk p0 = Ok (0%Z, p).
Proof. intros c p0 csk Hc Hi. eexists. exact (init_cp c Hc csk p0 Hi). Qed.
Print Assumptions C14_initialisation_succeeds.
(** the standard sets are such choices *)
Theorem C14_standard_sets : forall mt r p0 p, In r (rows mt) ->
  parse_oid mt ref_core_sk_bytes p0 (r_oid r) = Ok (Some p) \/ parse_oid mt fast_core_sk_bytes p0 (r_oid r) = Ok (Some p) ->
  custom_ok (row_custom r) /\ configured (row_custom r) p.
Proof. exact standard_configured. Qed.
Print Assumptions C14_standard_sets.
Example C14_applies : xmss_xmssmt_initialize_params ref_core_sk_bytes ex_p0 = Ok (0%Z, ex_p) /\ inputs ex_custom ex_p0 /\ sig_bytes ex_p = 2 + 32 + 3 * (133 + 4) * 32.
Proof. split; [vm_compute; reflexivity|]. split; [repeat split|]. now vm_compute. Qed.
(** any other Winternitz parameter is refused *)
Theorem C14_bad_w : forall csk p0, f_d p0 <> 0%N -> ~ In (f_wots_w p0) [4; 16; 256]%N ->
  exists p, xmss_xmssmt_initialize_params csk p0 = Ok ((-1)%Z, p).
Proof.
  intros csk p0 Hd Hw. unfold xmss_xmssmt_initialize_params. destruct (N.eqb_spec (f_d p0) 0); [contradiction|].
  destruct (N.eqb_spec (f_wots_w p0) 4) as [H|_]; [exfalso; apply Hw; rewrite H; now left|].
  destruct (N.eqb_spec (f_wots_w p0) 16) as [H|_]; [exfalso; apply Hw; rewrite H; right; now left|].
  destruct (N.eqb_spec (f_wots_w p0) 256) as [H|_]; [exfalso; apply Hw; rewrite H; right; right; now left|]. eauto.
Qed.
Print Assumptions C14_bad_w.

(** C15 refuted: initialisation never sets padding_len, on which every hash call depends. *)
Theorem C15_padding_never_set : forall csk p0 rc p, xmss_xmssmt_initialize_params csk p0 = Ok (rc, p) -> f_padding_len p = f_padding_len p0.
Proof. exact init_keeps_padding. Qed.
Print Assumptions C15_padding_never_set.
(** With padding_len filled in as well all fields are determined. *)
Theorem C15_with_padding_partial : forall csk p0 p1 p q, csk = ref_core_sk_bytes \/ csk = fast_core_sk_bytes ->
  f_func p0 = f_func p1 -> f_n p0 = f_n p1 -> f_padding_len p0 = f_padding_len p1 -> f_wots_w p0 = f_wots_w p1 ->
  f_full_height p0 = f_full_height p1 -> f_d p0 = f_d p1 -> f_bds_k p0 = f_bds_k p1 ->
  xmss_xmssmt_initialize_params csk p0 = Ok (0%Z, p) -> xmss_xmssmt_initialize_params csk p1 = Ok (0%Z, q) -> p = q.
Proof. exact init_determined. Qed.
Print Assumptions C15_with_padding_partial.
Theorem C15_refuted : ~ forall p0 p1 p q,
  f_func p0 = f_func p1 -> f_n p0 = f_n p1 -> f_wots_w p0 = f_wots_w p1 ->
  f_full_height p0 = f_full_height p1 -> f_d p0 = f_d p1 -> f_bds_k p0 = f_bds_k p1 ->
  xmss_xmssmt_initialize_params ref_core_sk_bytes p0 = Ok (0%Z, p) -> xmss_xmssmt_initialize_params ref_core_sk_bytes p1 = Ok (0%Z, q) -> p = q.
Proof.
  intros H. assert (He : f_padding_len ex_p = 0%N); [|discriminate He].
  rewrite (H ex_p0 (mkParams 0 32 0 4 77 77 77 77 77 12 77 3 77 77 77 77 0) ex_p (mkParams 0 32 0 4 2 128 5 133 4256 12 4 3 2 13186 64 130 0)); try reflexivity; vm_compute; reflexivity.
Qed.
Print Assumptions C15_refuted.

(** C09. WOTS+ round trip, whatever is in the scratch words of the three addresses. *)
Theorem C09_wots_roundtrip : forall (E : Env) c p, env_ok E -> custom_ok c -> configured c p ->
  forall sk_seed pub_seed M x y z, length sk_seed = cu_n c -> length pub_seed = cu_n c -> length M = cu_n c -> bytes_ok M ->
  addr_ok x -> a3 x = 0%N -> same_key x y -> same_key x z -> addr_ok y -> addr_ok z ->
  exists sig pk x' y' z', wots_sign p M sk_seed pub_seed x = Ok (sig, x') /\ wots_pkgen p sk_seed pub_seed y = Ok (pk, y') /\
    wots_pk_from_sig p sig M pub_seed z = Ok (pk, z') /\
    sig = concat (wots_sig (custom_sp c) pub_seed (a0 x) (tree_word x) (a4 x) sk_seed M) /\
    pk = concat (wots_pk (custom_sp c) pub_seed (a0 x) (tree_word x) (a4 x) sk_seed).
Proof. exact (@wots_roundtrip). Qed.
Print Assumptions C09_wots_roundtrip.
(* non-vacuity: ex_custom_ok, ex_configured, ex_addrs, ex_msgs *)

(** C11. Chain lengths. *)
Theorem C11_chain_lengths : forall (E : Env) c p, env_ok E -> custom_ok c -> configured c p ->
  forall M, length M = cu_n c -> bytes_ok M ->
  let P := custom_sp c in let w := 2 ^ cu_lgw c in
  exists l, chain_lengths p M = Ok l /\ l = wots_digits P M /\ length l = sp_len P /\ (forall i, nth i l 0 < w) /\
    firstn (sp_len1 P) l = base_w_spec (cu_lgw c) M (sp_len1 P) /\
    digits_value w (firstn (sp_len1 P) l) = os2ip M /\
    (cu_lgw c <> 8 -> digits_value w (skipn (sp_len1 P) l) = N.of_nat (csum_spec P (firstn (sp_len1 P) l))).
Proof. exact (@lengths_ok). Qed.
Print Assumptions C11_chain_lengths.
Example C11_applies : chain_lengths (E := zero_env) ex_p (repeat 7%N 32) = Ok (concat (repeat [0; 0; 1; 3] 32) ++ [1; 0; 0; 0; 0]).
Proof. vm_compute. reflexivity. Qed.

(** C10. No message encoding dominates another, for w = 4 and w = 16. *)
Theorem C10_domination_free_partial : forall (E : Env) c p, env_ok E -> custom_ok c -> configured c p -> forall M1 M2 l1 l2,
  cu_lgw c <> 8 -> length M1 = cu_n c -> bytes_ok M1 -> length M2 = cu_n c -> bytes_ok M2 -> M1 <> M2 ->
  chain_lengths p M1 = Ok l1 -> chain_lengths p M2 = Ok l2 -> exists i, i < sp_len (custom_sp c) /\ nth i l2 0 < nth i l1 0.
Proof. exact (@no_domination). Qed.
Print Assumptions C10_domination_free_partial.
(** For w = 256 it fails: from the signature of one message anybody computes (without the
    secret seed) a signature of another that leads to the same public key. *)
Theorem C10_refuted_w256 : forall (E : Env) c p, env_ok E -> custom_ok c -> configured c p -> cu_lgw c = 8 ->
  exists M1 M2, M1 <> M2 /\ length M1 = cu_n c /\ length M2 = cu_n c /\ bytes_ok M1 /\ bytes_ok M2 /\
  forall pub_seed x, length pub_seed = cu_n c -> addr_ok x -> a3 x = 0%N ->
  exists forge : bytes -> bytes, forall sk_seed, length sk_seed = cu_n c ->
  exists sig pk x' y' z', wots_sign p M1 sk_seed pub_seed x = Ok (sig, x') /\ wots_pkgen p sk_seed pub_seed x = Ok (pk, y') /\
    wots_pk_from_sig p (forge sig) M2 pub_seed x = Ok (pk, z').
Proof.
  intros E c p HE Hc Hp Hlg. exists (repeat 0%N (cu_n c)), (255%N :: repeat 0%N (cu_n c - 1)).
  assert (Hn : 24 <= cu_n c) by (destruct (c_n c Hc) as [->|[->| ->]]; lia).
  assert (Hz : forall k, bytes_ok (repeat 0%N k)) by (intros k; apply Forall_forall; intros x Hx; apply repeat_spec in Hx; subst; reflexivity).
  split; [destruct (cu_n c); [lia|discriminate]|]. split; [apply repeat_length|]. split; [cbn [length]; rewrite repeat_length; lia|].
  split; [apply Hz|]. split; [constructor; [reflexivity|apply Hz]|].
  intros seed x Hs Hx Ht. eexists. intros sks Hks.
  refine (dominated_forgery c p HE Hc Hp sks seed _ _ x Hks Hs (repeat_length _ _) (Hz _) _ _ Hx Ht (w256_dominated c Hc Hlg)).
  - cbn [length]. rewrite repeat_length. lia.
  - constructor; [reflexivity|apply Hz].
Qed.
Print Assumptions C10_refuted_w256.
(* non-vacuity: ex_custom8_ok *)

(** C23. Tree hash = complete binary tree. *)
Theorem C23_treehash_is_merkle_tree : forall (E : Env) c p, env_ok E -> custom_ok c -> configured c p ->
  forall sk_seed pub_seed i a auth0, length sk_seed = cu_n c -> length pub_seed = cu_n c -> addr_ok a ->
  (i < 2 ^ N.of_nat (sp_th (custom_sp c)))%N -> length auth0 = sp_th (custom_sp c) * cu_n c ->
  treehash p auth0 0 sk_seed pub_seed i a =
    Ok (root (custom_sp c) sk_seed pub_seed (a0 a) (tree_word a),
        concat (auth_path (custom_sp c) sk_seed pub_seed (a0 a) (tree_word a) i)).
Proof. exact (@treehash_ok). Qed.
Print Assumptions C23_treehash_is_merkle_tree.
(* non-vacuity: ex_custom_ok, ex_configured (4 levels), any i < 16 *)

(** C24. Climbing from any leaf value along any path is RFC 8391's root computation, and
    from leaf i along its own authentication path it ends in the tree's root. *)
Theorem C24_compute_root : forall (E : Env) c p, env_ok E -> custom_ok c -> configured c p ->
  forall pub_seed lf i auth a, length pub_seed = cu_n c -> length lf = cu_n c -> Forall (fun x => length x = cu_n c) auth ->
  length auth = sp_th (custom_sp c) -> addr_ok a -> a3 a = 2%N -> a4 a = 0%N ->
  exists a', compute_root p lf i (concat auth) 0 pub_seed a = Ok (climb (custom_sp c) pub_seed (a0 a) (tree_word a) lf 0 i auth, a').
Proof. exact (@compute_root_ok). Qed.
Print Assumptions C24_compute_root.
Theorem C24_auth_path_leads_to_root : forall (E : Env) c p, env_ok E -> custom_ok c -> configured c p ->
  forall sk_seed pub_seed i a b auth0, length sk_seed = cu_n c -> length pub_seed = cu_n c -> addr_ok a -> addr_ok b ->
  a0 a = a0 b -> a1 a = a1 b -> a2 a = a2 b -> a3 b = 2%N -> a4 b = 0%N ->
  (i < 2 ^ N.of_nat (sp_th (custom_sp c)))%N -> length auth0 = sp_th (custom_sp c) * cu_n c ->
  exists rt auth b', treehash p auth0 0 sk_seed pub_seed i a = Ok (rt, auth) /\
    compute_root p (leaf (custom_sp c) sk_seed pub_seed (a0 a) (tree_word a) i) i auth 0 pub_seed b = Ok (rt, b').
Proof. exact (@auth_path_root). Qed.
Print Assumptions C24_auth_path_leads_to_root.
Example C24_applies : let a := mkAddr 1 0 5 0 3 99 98 97 in let b := mkAddr 1 0 5 2 0 1 1 1 in
  addr_ok a /\ addr_ok b /\ a0 a = a0 b /\ a1 a = a1 b /\ a2 a = a2 b /\ a3 b = 2%N /\ a4 b = 0%N.
Proof. repeat split. Qed.

(** C25. The in-place L-tree, for any number of nodes. *)
Theorem C25_l_tree : forall (E : Env) f p pub_seed nodes a, env_ok E -> func p = fn_code f -> fn_ok f (p_n p) -> length pub_seed = p_n p ->
  1 <= length nodes -> length nodes = wots_len p -> Forall (fun x => length x = p_n p) nodes -> addr_ok a -> a3 a = 1%N ->
  exists a', l_tree p (concat nodes) pub_seed a =
    Ok (ltree (mkSp (p_n p) (wots_log_w p) (padding_len p) (full_height p) (p_d p) (hash_of f (p_n p))) pub_seed (a0 a) (tree_word a) (a4 a) (length nodes) 0 nodes, a').
Proof. exact (@l_tree_any). Qed.
Print Assumptions C25_l_tree.
Example C25_applies : fn_ok SHA2 (p_n ex_p) /\ func ex_p = fn_code SHA2 /\ length (repeat (repeat 5%N 32) 133) = wots_len ex_p /\
  Forall (fun x => length x = p_n ex_p) (repeat (repeat 5%N 32) 133).
Proof. split; [right; left; reflexivity|]. split; [reflexivity|]. split; [reflexivity|]. apply Forall_forall. intros x Hx. apply repeat_spec in Hx. now subst. Qed.

(** C34. SHAKE. *)
Theorem C34_shake128_is_fips202 : forall outlen inp,
  exists o, shake128 outlen inp = Ok o /\ length o = outlen /\ bytes_ok o /\ h2b o = SHAKE128 (h2b inp) (8 * outlen).
Proof. exact shake128_fips. Qed.
Print Assumptions C34_shake128_is_fips202.
Theorem C34_shake256_is_fips202 : forall outlen inp,
  exists o, shake256 outlen inp = Ok o /\ length o = outlen /\ bytes_ok o /\ h2b o = SHAKE256 (h2b inp) (8 * outlen).
Proof. exact shake256_fips. Qed.
Print Assumptions C34_shake256_is_fips202.

(** C35. The internal hash supports exactly the existing combinations, in particular every
    accepted OID. *)
Theorem C35_hash_supported : forall (E : Env) p x, env_ok E ->
  (forall f, func p = fn_code f -> fn_ok f (p_n p) -> exists o, core_hash_rc p x = Ok (Some o) /\ length o = p_n p /\ bytes_ok o) /\
  ((forall f, func p = fn_code f -> ~ fn_ok f (p_n p)) -> core_hash_rc p x = Ok None).
Proof. exact (@core_hash_total). Qed.
Print Assumptions C35_hash_supported.
Theorem C35_every_oid_hashes : forall (E : Env) mt r p0 p x, env_ok E -> In r (rows mt) ->
  parse_oid mt ref_core_sk_bytes p0 (r_oid r) = Ok (Some p) \/ parse_oid mt fast_core_sk_bytes p0 (r_oid r) = Ok (Some p) ->
  exists o, core_hash_rc p x = Ok (Some o) /\ o = hash_of (r_fn r) (r_n r) x /\ length o = r_n r.
Proof. exact (@oid_hash). Qed.
Print Assumptions C35_every_oid_hashes.
