(** Property theorems about domain separation, addresses, binding and forgeries. *)
From Verif Require Import Base Lib ModelUtils ModelParams ModelHash ModelWots ModelCommons ModelCore ModelXmss SpecRfc SpecParams SpecApi SpecComp SpecSec
  ProofHash ProofToy ProofComp ProofComp2 ProofSec ProofSec2 PropApi PropComp.
Local Existing Instance ex_env.

(** C32. What the five hash functions of the code hash: tag, key, rest... *)
Theorem C32_what_is_hashed : forall (E : Env) c p, env_ok E -> custom_ok c -> configured c p ->
  let P := custom_sp c in let n := cu_n c in let h := sp_hash P in
  (forall inp key, length inp = 32 -> length key = n -> prf p inp key = Ok (h (hashed P RolePrf key inp))) /\
  (forall inp key, length inp = n + 32 -> length key = n -> prf_keygen p inp key = Ok (h (hashed P RoleKeygen key inp))) /\
  (forall x seed a, length x = n -> length seed = n ->
     let prf k := h (hashed P RolePrf seed (addr_to_bytes (set_key_and_mask a k))) in
     thash_f p x seed a = Ok (h (hashed P RoleF (prf 0%N) (xorb_spec x (prf 1%N))), set_key_and_mask a 1)) /\
  (forall x y seed a, length x = n -> length y = n -> length seed = n ->
     let prf k := h (hashed P RolePrf seed (addr_to_bytes (set_key_and_mask a k))) in
     thash_h p (x ++ y) seed a = Ok (h (hashed P RoleH (prf 0%N) (xorb_spec x (prf 1%N) ++ xorb_spec y (prf 2%N))), set_key_and_mask a 2)) /\
  (forall R r root idx buf off mlen, (forall b, R b = Ok r) -> length r = n -> length root = n -> index_bytes p + n <= off ->
     off + cu_pad c + 3 * n + mlen <= length buf ->
     let m := firstn mlen (skipn (off + cu_pad c + 3 * n) buf) in
     exists buf', hash_message p R root idx buf off mlen = Ok (h (hashed P RoleMsg (r ++ root ++ toByte idx n) m), buf')).
Proof. exact (@what_is_hashed). Qed.
Print Assumptions C32_what_is_hashed.
(** ... and such strings coincide only if role, key and rest coincide; the key of the
    message hash determines randomiser, root and index. *)
Theorem C32_roles_separated : forall P r1 r2 k1 k2 m1 m2, 1 <= sp_pad P -> length k1 = key_len P r1 -> length k2 = key_len P r2 ->
  hashed P r1 k1 m1 = hashed P r2 k2 m2 -> r1 = r2 /\ k1 = k2 /\ m1 = m2.
Proof. exact hashed_separated. Qed.
Print Assumptions C32_roles_separated.
Theorem C32_message_key : forall P r1 rt1 i1 r2 rt2 i2, length r1 = sp_n P -> length rt1 = sp_n P -> length r2 = sp_n P -> length rt2 = sp_n P ->
  (i1 < 256 ^ N.of_nat (sp_n P))%N -> (i2 < 256 ^ N.of_nat (sp_n P))%N ->
  r1 ++ rt1 ++ toByte i1 (sp_n P) = r2 ++ rt2 ++ toByte i2 (sp_n P) -> r1 = r2 /\ rt1 = rt2 /\ i1 = i2.
Proof. exact msg_key_inj. Qed.
Print Assumptions C32_message_key.
(** All standard sets have a non-empty prefix... *)
Theorem C32_standard_sets : forall (E : Env) mt r, In r (rows mt) -> 1 <= sp_pad (row_sp r).
Proof. intros E mt r Hr. cbn [row_sp sp_pad]. destruct (Nat.eqb_spec (r_n r) 24); [lia|]. destruct (c_n (row_custom r) (rows_custom_ok mt r Hr)) as [H|[H|H]]; cbn [row_custom cu_n] in H; lia. Qed.
Print Assumptions C32_standard_sets.
(** ... but parameters initialised by hand have whatever padding_len the caller left there
    (C15); with 0 the separation is gone. *)
Example C32_needs_prefix : forall P key x, sp_pad P = 0 -> hashed P RoleF key x = hashed P RolePrf key x.
Proof. intros P key x H. unfold hashed. rewrite H. reflexivity. Qed.
Example C32_applies : hashed (row_sp (E := ex_env) ex_row) RoleF (repeat 1%N 32) (repeat 2%N 32) <> hashed (row_sp (E := ex_env) ex_row) RolePrf (repeat 1%N 32) (repeat 2%N 32).
Proof. intros H. apply C32_roles_separated in H; [destruct H; discriminate|apply (C32_standard_sets ex_env false); exact ex_row_in|reflexivity|reflexivity]. Qed.

(** C33. Addresses. *)
Theorem C33_address_encoding_injective : forall a b, addr_ok a -> addr_ok b -> addr_to_bytes a = addr_to_bytes b -> a = b.
Proof. exact addr_inj. Qed.
Print Assumptions C33_address_encoding_injective.
Theorem C33_positions_differ : forall (E : Env) c a b, custom_ok c -> key_adrs (custom_sp c) a -> key_adrs (custom_sp c) b ->
  adrs_bytes a = adrs_bytes b -> a = b.
Proof. intros E c a b Hc Ha Hb. apply adrs_inj; now apply (key_adrs_ok c). Qed.
Print Assumptions C33_positions_differ.
(** the code's address words encode these positions *)
Theorem C33_code_addresses : forall l t o c h k a,
  (adrs_ok (OTS l t o c h k) ->
   addr_to_bytes (set_key_and_mask (set_hash_addr (set_chain_addr (set_ots_addr (set_type (set_tree_addr (set_layer_addr a l) t) XMSS_ADDR_TYPE_OTS) o) c) h) k) = adrs_bytes (OTS l t o c h k)) /\
  (adrs_ok (LTREE l t o c h k) ->
   addr_to_bytes (set_key_and_mask (set_tree_index (set_tree_height (set_ltree_addr (set_type (set_tree_addr (set_layer_addr a l) t) XMSS_ADDR_TYPE_LTREE) o) c) h) k) = adrs_bytes (LTREE l t o c h k)) /\
  (adrs_ok (HTREE l t c h k) -> a4 a = 0%N ->
   addr_to_bytes (set_key_and_mask (set_tree_index (set_tree_height (set_type (set_tree_addr (set_layer_addr a l) t) XMSS_ADDR_TYPE_HASHTREE) c) h) k) = adrs_bytes (HTREE l t c h k)).
Proof. intros l t o c h k a. split; [apply setters_ots|]. split; [apply setters_ltree|apply setters_htree]. Qed.
Print Assumptions C33_code_addresses.
Example C33_applies : key_adrs (custom_sp (E := ex_env) ex_custom) (OTS 1 5 3 132 2 1) /\ key_adrs (custom_sp (E := ex_env) ex_custom) (HTREE 0 255 3 0 2).
Proof.
  split.
  - apply (ka_chain (custom_sp (E := ex_env) ex_custom) 1 5 3 132 2 1); vm_compute; try reflexivity; try discriminate; repeat constructor.
  - apply (ka_tree (custom_sp (E := ex_env) ex_custom) 0 255 3 0 2); vm_compute; try reflexivity; try discriminate; repeat constructor.
Qed.

(** C36. Binding: two leaves with the same root, two one-time public keys with the same leaf. *)
Theorem C36_leaf_binding : forall (E : Env), env_ok E -> forall c p, custom_ok c -> configured c p ->
  forall seed lf1 lf2 i auth1 auth2 a rt z1 z2, let P := custom_sp c in
  length seed = cu_n c -> length lf1 = cu_n c -> length lf2 = cu_n c ->
  Forall (fun x => length x = cu_n c) auth1 -> length auth1 = sp_th P -> Forall (fun x => length x = cu_n c) auth2 -> length auth2 = sp_th P ->
  addr_ok a -> a3 a = 2%N -> a4 a = 0%N -> lf1 <> lf2 ->
  compute_root p lf1 i (concat auth1) 0 seed a = Ok (rt, z1) -> compute_root p lf2 i (concat auth2) 0 seed a = Ok (rt, z2) ->
  collision P seed (climb_queries P seed (a0 a) (tree_word a) lf1 0 i auth1) (climb_queries P seed (a0 a) (tree_word a) lf2 0 i auth2).
Proof. exact (@leaf_binding). Qed.
Print Assumptions C36_leaf_binding.
Theorem C36_one_time_key_binding : forall (E : Env), env_ok E -> forall c p, custom_ok c -> configured c p ->
  forall seed pk1 pk2 a v z1 z2, let P := custom_sp c in length seed = cu_n c ->
  Forall (fun x => length x = cu_n c) pk1 -> length pk1 = sp_len P -> Forall (fun x => length x = cu_n c) pk2 -> length pk2 = sp_len P ->
  addr_ok a -> a3 a = 1%N -> pk1 <> pk2 ->
  l_tree p (concat pk1) seed a = Ok (v, z1) -> l_tree p (concat pk2) seed a = Ok (v, z2) ->
  collision P seed (ltree_queries P seed (a0 a) (tree_word a) (a4 a) (sp_len P) 0 pk1) (ltree_queries P seed (a0 a) (tree_word a) (a4 a) (sp_len P) 0 pk2).
Proof. exact (@pk_binding). Qed.
Print Assumptions C36_one_time_key_binding.
(** At the level of the API: two signed messages with the same index that both open under
    the same public key use the same one-time public key in the top layer, and in every
    layer whose root they agree on, unless their verification runs exhibit a collision. *)
Theorem C36_accepted_signatures_share_keys : forall E : Env, env_ok E -> forall mt r c1 c2 mb1 mb2 l1 l2 sm1 sm2 pk o1 o2, In r (rows mt) ->
  a_core c1 -> a_core c2 -> key_of r (pk_size r) pk ->
  sig_size r <= length sm1 -> sig_size r <= length sm2 -> bytes_ok sm1 -> bytes_ok sm2 -> length sm1 <= length mb1 -> length sm2 <= length mb2 ->
  sign_open mt c1 mb1 l1 sm1 pk = Ok o1 -> oo_rc o1 = 0%Z -> sign_open mt c2 mb2 l2 sm2 pk = Ok o2 -> oo_rc o2 = 0%Z ->
  sm_index r sm1 = sm_index r sm2 ->
  let P := row_sp r in
  let rt := firstn (r_n r) (skipn 4 pk) in let seed := skipn (4 + r_n r) pk in
  let sig1 := firstn (sig_size r) sm1 in let m1 := skipn (sig_size r) sm1 in
  let sig2 := firstn (sig_size r) sm2 in let m2 := skipn (sig_size r) sm2 in
  (layer_pk P seed rt sig1 m1 (r_d r - 1) = layer_pk P seed rt sig2 m2 (r_d r - 1) \/
   collision P seed (verify_queries P seed rt sig1 m1) (verify_queries P seed rt sig2 m2)) /\
  (forall k, S k < r_d r -> signed_at P seed rt sig1 m1 (S k) = signed_at P seed rt sig2 m2 (S k) ->
   layer_pk P seed rt sig1 m1 k = layer_pk P seed rt sig2 m2 k \/
   collision P seed (verify_queries P seed rt sig1 m1) (verify_queries P seed rt sig2 m2)).
Proof. exact (@top_binding). Qed.
Print Assumptions C36_accepted_signatures_share_keys.

(** C37. Two different signed messages (another message, or just another signature) with the
    same index that both open under the same public key (whoever made it)... *)
Theorem C37_two_openings_break_the_hash : forall E : Env, env_ok E -> forall mt r, In r (rows mt) ->
  forall c1 c2 mb1 mb2 l1 l2 sm1 sm2 pk o1 o2, a_core c1 -> a_core c2 -> key_of r (pk_size r) pk ->
  sig_size r <= length sm1 -> sig_size r <= length sm2 -> bytes_ok sm1 -> bytes_ok sm2 -> length sm1 <= length mb1 -> length sm2 <= length mb2 ->
  sign_open mt c1 mb1 l1 sm1 pk = Ok o1 -> oo_rc o1 = 0%Z -> sign_open mt c2 mb2 l2 sm2 pk = Ok o2 -> oo_rc o2 = 0%Z ->
  sm_index r sm1 = sm_index r sm2 -> sm1 <> sm2 ->
  let P := row_sp r in
  let rt := firstn (r_n r) (skipn 4 pk) in let seed := skipn (4 + r_n r) pk in
  let sig1 := firstn (sig_size r) sm1 in let m1 := skipn (sig_size r) sm1 in
  let sig2 := firstn (sig_size r) sm2 in let m2 := skipn (sig_size r) sm2 in
  let q1 := verify_queries P seed rt sig1 m1 in let q2 := verify_queries P seed rt sig2 m2 in
  collision P seed q1 q2 \/ preimage P seed rt sig1 m1 q1 q2.
Proof. exact (@two_openings). Qed.
Print Assumptions C37_two_openings_break_the_hash.
(** ... in particular a forgery against an honest key: the honest signer's k-th signature and
    any other accepted signed message with index k. *)
Theorem C37_forgery_breaks_the_hash : forall E : Env, env_ok E -> forall mt r, In r (rows mt) ->
  forall rnd pk0 sk0 cs pk sk sk' os k x o c mbuf mlen sm oo, (forall i, (rnd i < 256)%N) ->
  length pk0 = 4 + pk_size r -> length sk0 = 4 + sk_size r ->
  keypair mt ref_core pk0 sk0 (r_oid r) rnd = Ok (0%Z, pk, sk) ->
  (N.of_nat (length cs) < 2 ^ N.of_nat (r_h r))%N -> Forall (call_ok r) cs -> Forall (fun q => bytes_ok (c_m q)) cs ->
  sign_run mt ref_core sk cs = Ok (sk', os) -> nth_error cs k = Some x -> nth_error os k = Some o ->
  a_core c -> sig_size r <= length sm -> bytes_ok sm -> length sm <= length mbuf ->
  sign_open mt c mbuf mlen sm pk = Ok oo -> oo_rc oo = 0%Z ->
  sm_index r sm = N.of_nat k -> sm <> signed_message o ->
  let P := row_sp r in
  let rt := firstn (r_n r) (skipn 4 pk) in let seed := skipn (4 + r_n r) pk in
  let hsig := firstn (sig_size r) (signed_message o) in
  let honest := verify_queries P seed rt hsig (c_m x) in
  let forged := verify_queries P seed rt (firstn (sig_size r) sm) (skipn (sig_size r) sm) in
  collision P seed honest forged \/ preimage P seed rt hsig (c_m x) honest forged.
Proof. exact (@forgery). Qed.
Print Assumptions C37_forgery_breaks_the_hash.
(** The hypotheses can be met (by whoever has the secret key and signs twice with one index). *)
Example C37_applies : exists pk sk sk' os o sm mbuf oo,
    keypair false ref_core (repeat 0%N 68) (repeat 0%N 136) (r_oid ex_row) ex_rnd = Ok (0%Z, pk, sk) /\
    sign_run false ref_core sk (repeat ex_call 5) = Ok (sk', os) /\ nth_error os 3 = Some o /\
    sig_size ex_row <= length sm /\ bytes_ok sm /\ length sm <= length mbuf /\
    sign_open false fast_core mbuf 0 sm pk = Ok oo /\ oo_rc oo = 0%Z /\ sm_index ex_row sm = N.of_nat 3 /\ skipn (sig_size ex_row) sm <> c_m ex_call.
Proof.
  refine (forgery_met ex_env_ok false ex_row ex_rnd (repeat 0%N 68) (repeat 0%N 136) (repeat ex_call 5) 3 ex_call [9]%N fast_core ex_row_in ex_rnd_bytes
    ex_pk_len ex_sk_len _ (ex_calls_ok 5) eq_refl _ _ (or_intror eq_refl)); [reflexivity|repeat constructor|discriminate].
Qed.
