(** Property theorems about the fast multi-tree core (xmss_core_fast.c, several layers). *)
From Coq Require Import String.
From Verif Require Import Base ModelParams ModelCore ModelCoreFast ModelCommons ModelXmss SpecRfc SpecParams SpecApi SpecComp SpecFast.
From Verif Require Import ProofToy ProofMain3 ProofFast3 ProofFast4 ProofFast6 ProofFast7 ProofMt7 ProofToy2 ProofMt9 ProofMt10 PropApi.

Local Existing Instance ex_env.
Definition ex_mt4 : row := mkRow true 2 "SHA2" SHA2 32 20 4.      (* XMSSMT-SHA2_20/4_256 *)
Example ex_mt4_in : In ex_mt4 (rows true) /\ few_layers ex_mt4.
Proof. split; [right; now left|apply Nat.leb_le; vm_compute; reflexivity]. Qed.
(** exactly the sets with 8 layers of height 40 and 12 layers of height 60 have too many layers *)
Example few_layers_sets : forall r, In r (rows true) -> few_layers r <-> ~ (r_d r = 8 \/ r_d r = 12).
Proof.
  intros r Hr. assert (Hx : forallb (fun r => Bool.eqb (r_d r <=? r_h r / r_d r / 2 + 2) (negb ((r_d r =? 8) || (r_d r =? 12)))) (rows true) = true) by (vm_compute; reflexivity).
  rewrite forallb_forall in Hx. specialize (Hx r Hr). apply Bool.eqb_prop in Hx. unfold few_layers. rewrite <- Nat.leb_le, Hx.
  destruct (Nat.eqb_spec (r_d r) 8), (Nat.eqb_spec (r_d r) 12); cbn; intuition discriminate.
Qed.
(** for which the limit is 2^h; for the others it is 2^20 *)
Example fast_limit_sets : forall r, In r (rows true) -> fast_limit r = if (r_d r =? 8)%nat || (r_d r =? 12)%nat then (2 ^ 20)%N else (2 ^ N.of_nat (r_h r))%N.
Proof.
  intros r Hr. assert (Hx : forallb (fun r => (fast_limit r =? (if (r_d r =? 8)%nat || (r_d r =? 12)%nat then 2 ^ 20 else 2 ^ N.of_nat (r_h r)))%N) (rows true) = true) by (vm_compute; reflexivity).
  rewrite forallb_forall in Hx. apply N.eqb_eq, Hx, Hr.
Qed.
Example ex_mt4_len : length (repeat 0%N 10942) = 4 + fast_size ex_mt4 /\ length (repeat 0%N 135) = 4 + sk_size ex_mt4 /\ length (repeat 0%N 68) = 4 + pk_size ex_mt4.
Proof. repeat split; vm_compute; reflexivity. Qed.
Example ex_mt4_bytes k : bytes_ok (repeat 0%N k).
Proof. apply Forall_forall. intros x Hx. apply repeat_spec in Hx. now subst. Qed.
Definition ex_mt_call : call := mkCall [1; 2; 3]%N (repeat 0%N 9300) 0.
Example ex_mt_calls_ok k : Forall (call_ok ex_mt4) (repeat ex_mt_call k).
Proof. apply Forall_forall. intros x Hx. apply repeat_spec in Hx. subst. apply Nat.leb_le. vm_compute. reflexivity. Qed.

(** C27. From the same randomness both cores make the same public key, and in every history
    of fewer calls than the core's limit every answer (return code, signed message buffer,
    length) of the fast core is the reference core's; the fast secret key starts with the
    reference secret key all along.  The limit is 2^h for every parameter set but 40/8 and
    60/12, where it is 2^20 and cannot be raised (C27_refuted). *)
Theorem C27_fast_xmssmt_is_reference_partial : forall E : Env, env_ok E -> forall r rnd pkr skr pkf skf cs, In r (rows true) ->
  (forall i, (rnd i < 256)%N) ->
  length pkr = 4 + pk_size r -> length skr = 4 + sk_size r -> length pkf = 4 + pk_size r -> length skf = 4 + fast_size r -> bytes_ok skf ->
  (N.of_nat (length cs) < fast_limit r)%N -> Forall (call_ok r) cs ->
  exists pk kr kf kr' kf' ors ofs,
    keypair true ref_core pkr skr (r_oid r) rnd = Ok (0%Z, pk, kr) /\
    keypair true fast_core pkf skf (r_oid r) rnd = Ok (0%Z, pk, kf) /\
    length kf = 4 + fast_size r /\ firstn (4 + sk_size r) kf = kr /\
    sign_run true ref_core kr cs = Ok (kr', ors) /\ sign_run true fast_core kf cs = Ok (kf', ofs) /\
    length kf' = 4 + fast_size r /\ firstn (4 + sk_size r) kf' = kr' /\
    length ors = length cs /\ Forall2 same_answer ors ofs.
Proof.
  intros E HE r rnd pkr skr pkf skf cs Hr.
  exact (agree HE true r Hr (goodm r) (fast_limit r) (mr_lim r Hr) (mstep HE r Hr) (mlen HE r Hr) (mkey HE r Hr) rnd pkr skr pkf skf cs).
Qed.
Print Assumptions C27_fast_xmssmt_is_reference_partial.
Example C27_applies : exists pk kr kf kr' kf' ors ofs,
    keypair (E := ex_env) true ref_core (repeat 0%N 68) (repeat 0%N 135) (r_oid ex_mt4) ex_rnd = Ok (0%Z, pk, kr) /\
    keypair (E := ex_env) true fast_core (repeat 0%N 68) (repeat 0%N 10942) (r_oid ex_mt4) ex_rnd = Ok (0%Z, pk, kf) /\
    sign_run (E := ex_env) true ref_core kr (repeat ex_mt_call 40000) = Ok (kr', ors) /\
    sign_run (E := ex_env) true fast_core kf (repeat ex_mt_call 40000) = Ok (kf', ofs) /\ Forall2 same_answer ors ofs.
Proof.
  destruct (C27_fast_xmssmt_is_reference_partial ex_env ex_env_ok ex_mt4 ex_rnd (repeat 0%N 68) (repeat 0%N 135) (repeat 0%N 68) (repeat 0%N 10942) (repeat ex_mt_call 40000)
    (proj1 ex_mt4_in) ex_rnd_bytes (proj2 (proj2 ex_mt4_len)) (proj1 (proj2 ex_mt4_len)) (proj2 (proj2 ex_mt4_len)) (proj1 ex_mt4_len) (ex_mt4_bytes _))
    as (pk & kr & kf & kr' & kf' & ors & ofs & A1 & A2 & _ & _ & A3 & A4 & _ & _ & _ & A5).
  - rewrite repeat_length. vm_compute. reflexivity.
  - apply ex_mt_calls_ok.
  - exists pk, kr, kf, kr', kf', ors, ofs. auto.
Qed.

(** C28. What the key stores after any history of N calls: for every layer the
    authentication path of the leaf index N selects there, and for every layer but the
    last the signature, by the layer above, of the root of the very tree in use. *)
Theorem C28_stored_traversal_partial : forall E : Env, env_ok E -> forall r, In r (rows true) ->
  forall p rnd pk0 sk0 cs pk sk, parse_oid true fast_core_sk_bytes uninit_params (r_oid r) = Ok (Some p) -> (forall i, (rnd i < 256)%N) ->
  length pk0 = 4 + pk_size r -> length sk0 = 4 + fast_size r -> bytes_ok sk0 ->
  keypair true fast_core pk0 sk0 (r_oid r) rnd = Ok (0%Z, pk, sk) -> Forall (call_ok r) cs ->
  (N.of_nat (length cs) < fast_limit r)%N ->
  let P := row_sp r in let i := N.of_nat (length cs) in let sks := sk_field r 0 sk in let seed := sk_field r 3 sk in
  let w := sp_len P * r_n r in
  exists sk' os ss ws, sign_run true fast_core sk cs = Ok (sk', os) /\
    xmssmt_deserialize_state p (skipn 4 sk') = Ok (ss, ws) /\
    length ss = 2 * r_d r - 1 /\ length ws = (r_d r - 1) * w /\
    (forall l, l < r_d r -> exists s, nth_error ss l = Some s /\
       st_auth s = concat (auth_path P sks seed (N.of_nat l) (tree_of P i l) (leaf_of P i l))) /\
    (forall l, l + 1 < r_d r -> firstn w (skipn (l * w) ws) =
       concat (wots_sig P seed (N.of_nat (l + 1)) (tree_of P i (l + 1)) (leaf_of P i (l + 1)) sks
                 (root P sks seed (N.of_nat l) (tree_of P i l)))).
Proof. exact (@mt_stored_api). Qed.
Print Assumptions C28_stored_traversal_partial.
(** ... and when the next call uses the last leaf of a tree of layer l, the next tree of
    that layer is complete (on layer 0: but for the leaf that call itself adds), with its
    root on the stack. *)
Theorem C28_next_tree_is_built_partial : forall E : Env, env_ok E -> forall r, In r (rows true) ->
  forall p rnd pk0 sk0 cs pk sk l, parse_oid true fast_core_sk_bytes uninit_params (r_oid r) = Ok (Some p) -> (forall i, (rnd i < 256)%N) ->
  length pk0 = 4 + pk_size r -> length sk0 = 4 + fast_size r -> bytes_ok sk0 ->
  keypair true fast_core pk0 sk0 (r_oid r) rnd = Ok (0%Z, pk, sk) -> Forall (call_ok r) cs ->
  let P := row_sp r in let i := N.of_nat (length cs) in let sks := sk_field r 0 sk in let seed := sk_field r 3 sk in
  l + 1 < r_d r -> (i + 1 < fast_limit r)%N -> ((i + 1) mod 2 ^ N.of_nat (sp_th P * (l + 1)) = 0)%N ->
  exists sk' os ss ws nx, sign_run true fast_core sk cs = Ok (sk', os) /\
    xmssmt_deserialize_state p (skipn 4 sk') = Ok (ss, ws) /\ nth_error ss (r_d r + l) = Some nx /\
    (st_next_leaf nx + (if (l =? 0)%nat then 1 else 0) = 2 ^ N.of_nat (sp_th P))%N /\
    (0 < l -> firstn (r_n r) (st_stack nx) = root P sks seed (N.of_nat l) (tree_of P (i + 1) l)).
Proof. exact (@mt_next_api). Qed.
Print Assumptions C28_next_tree_is_built_partial.
Example C28_applies : (exists p, parse_oid true fast_core_sk_bytes uninit_params (r_oid ex_mt4) = Ok (Some p)) /\
  (exists pk sk, keypair true fast_core (repeat 0%N 68) (repeat 0%N 10942) (r_oid ex_mt4) ex_rnd = Ok (0%Z, pk, sk)) /\
  1 + 1 < r_d ex_mt4 /\ ((N.of_nat (length (repeat ex_mt_call 1023)) + 1) mod 2 ^ N.of_nat (sp_th (row_sp ex_mt4) * (1 + 1)) = 0)%N.
Proof.
  split; [eexists; exact (ProofParams.parse_accept_fast true ex_mt4 _ (proj1 ex_mt4_in))|].
  split; [destruct C27_applies as (pk & _ & kf & _ & _ & _ & _ & _ & K & _); exists pk, kf; exact K|].
  split; [cbn; lia|]. rewrite repeat_length. vm_compute. reflexivity.
Qed.

(** C27/C28/C01 for the sets with more layers (40/8 and 60/12).  In every environment: when
    2^20 - 1 messages have been signed, the next call ends a tree of layer 3, but one of the
    32 leaves of that layer's next tree is still missing. *)
Theorem C28_refuted : forall E : Env, env_ok E -> forall r, In r (rows true) -> ~ few_layers r ->
  forall p rnd pk0 sk0 cs pk sk, parse_oid true fast_core_sk_bytes uninit_params (r_oid r) = Ok (Some p) -> (forall i, (rnd i < 256)%N) ->
  length pk0 = 4 + pk_size r -> length sk0 = 4 + fast_size r -> bytes_ok sk0 ->
  keypair true fast_core pk0 sk0 (r_oid r) rnd = Ok (0%Z, pk, sk) -> Forall (call_ok r) cs ->
  (N.of_nat (length cs) + 1 = 2 ^ 20)%N ->
  ((N.of_nat (length cs) + 1) mod 2 ^ N.of_nat (sp_th (row_sp r) * (3 + 1)) = 0)%N /\
  exists sk' os ss ws nx, sign_run true fast_core sk cs = Ok (sk', os) /\
    xmssmt_deserialize_state p (skipn 4 sk') = Ok (ss, ws) /\ nth_error ss (r_d r + 3) = Some nx /\
    st_next_leaf nx = 31%N /\ (2 ^ N.of_nat (sp_th (row_sp r)) = 32)%N.
Proof. exact (@late_api). Qed.
Print Assumptions C28_refuted.
(** ... the tree is used all the same: from then on the key stores, as layer 4's signature
    of layer 3's tree, a signature of the left child of its root. *)
Theorem C28_refuted_wrong_node : forall E : Env, env_ok E -> forall r, In r (rows true) -> ~ few_layers r ->
  forall p rnd pk0 sk0 cs pk sk, parse_oid true fast_core_sk_bytes uninit_params (r_oid r) = Ok (Some p) -> (forall i, (rnd i < 256)%N) ->
  length pk0 = 4 + pk_size r -> length sk0 = 4 + fast_size r -> bytes_ok sk0 ->
  keypair true fast_core pk0 sk0 (r_oid r) rnd = Ok (0%Z, pk, sk) -> Forall (call_ok r) cs ->
  N.of_nat (length cs) = (2 ^ 20)%N ->
  let P := row_sp r in let i := N.of_nat (length cs) in let sks := sk_field r 0 sk in let seed := sk_field r 3 sk in
  let w := sp_len P * r_n r in
  exists sk' os ss ws, sign_run true fast_core sk cs = Ok (sk', os) /\
    xmssmt_deserialize_state p (skipn 4 sk') = Ok (ss, ws) /\
    firstn w (skipn (3 * w) ws) =
      concat (wots_sig P seed 4 (tree_of P i 4) (leaf_of P i 4) sks (node P sks seed 3 (tree_of P i 3) (sp_th P - 1) 0)).
Proof. exact (@wrong_node_api). Qed.
Print Assumptions C28_refuted_wrong_node.
(** So agreement ends there: the first 2^20 answers are the reference core's, and in some
    environment the next signature, returned with code 0, is refused by the verifier under
    the very public key, while the reference core's is accepted. *)
Theorem C27_refuted : exists E : Env, env_ok E /\ forall r, In r (rows true) -> ~ few_layers r -> r_fn r = SHA2 -> r_n r = 32 ->
  forall rnd pkr skr pkf skf cs m sm smlen mbuf mlen core, (forall i, (rnd i < 256)%N) ->
  length pkr = 4 + pk_size r -> length skr = 4 + sk_size r -> length pkf = 4 + pk_size r -> length skf = 4 + fast_size r -> bytes_ok skf -> a_core core ->
  N.of_nat (length cs) = (2 ^ 20)%N -> Forall (call_ok r) cs ->
  bytes_ok m -> sig_size r + length m <= length sm -> sig_size r + length m <= length mbuf ->
  exists pk kr kf kr' kf' ors ofs o_r o_f oo_r oo_f,
    keypair true ref_core pkr skr (r_oid r) rnd = Ok (0%Z, pk, kr) /\
    keypair true fast_core pkf skf (r_oid r) rnd = Ok (0%Z, pk, kf) /\
    sign_run true ref_core kr cs = Ok (kr', ors) /\ sign_run true fast_core kf cs = Ok (kf', ofs) /\
    length ors = length cs /\ Forall2 same_answer ors ofs /\
    sign true ref_core kr' sm smlen m = Ok o_r /\ so_rc o_r = 0%Z /\
    sign true fast_core kf' sm smlen m = Ok o_f /\ so_rc o_f = 0%Z /\
    sign_open true core mbuf mlen (signed_message o_r) pk = Ok oo_r /\ oo_rc oo_r = 0%Z /\
    sign_open true core mbuf mlen (signed_message o_f) pk = Ok oo_f /\ oo_rc oo_f = (-1)%Z.
Proof. exists step_env. split; [exact step_env_ok|]. exact fast_mt_breaks. Qed.
Print Assumptions C27_refuted.
Definition ex_mt8 : row := mkRow true 5 "SHA2" SHA2 32 40 8.      (* XMSSMT-SHA2_40/8_256 *)
Definition ex_mt8_call : call := mkCall [1; 2; 3]%N (repeat 0%N 20000) 0.
Lemma ex_mt8_calls k : N.of_nat (length (repeat ex_mt8_call (N.to_nat k))) = k /\ Forall (call_ok ex_mt8) (repeat ex_mt8_call (N.to_nat k)).
Proof.
  split; [rewrite repeat_length; apply N2Nat.id|].
  apply Forall_forall. intros x Hx. apply repeat_spec in Hx. subst. apply Nat.leb_le. vm_compute. reflexivity.
Qed.
Example C27_refuted_applies : In ex_mt8 (rows true) /\ ~ few_layers ex_mt8 /\ r_fn ex_mt8 = SHA2 /\ r_n ex_mt8 = 32 /\
  exists cs, N.of_nat (length cs) = (2 ^ 20)%N /\ Forall (call_ok ex_mt8) cs.
Proof.
  split; [do 4 right; now left|]. split; [intros H; apply Nat.leb_le in H; vm_compute in H; discriminate|]. split; [reflexivity|]. split; [reflexivity|].
  eexists. exact (ex_mt8_calls (2 ^ 20)).
Qed.

(** C03, C04, C06, C45 over the whole life of a key *)
Theorem C03_fast_mt_life : forall E : Env, env_ok E -> forall r, In r (rows true) -> few_layers r -> r_h r < 8 * idx_size r -> forall rnd pk0 sk0 cs pk sk,
  (forall i, (rnd i < 256)%N) ->
  length pk0 = 4 + pk_size r -> length sk0 = 4 + fast_size r -> bytes_ok sk0 ->
  keypair true fast_core pk0 sk0 (r_oid r) rnd = Ok (0%Z, pk, sk) -> Forall (call_ok r) cs ->
  let a := sk_field r 0 sk in let b := sk_field r 1 sk in let c := sk_field r 2 sk in let d := sk_field r 3 sk in
  let lim := (2 ^ N.of_nat (r_h r))%N in
  exists sk' os, sign_run true fast_core sk cs = Ok (sk', os) /\ length os = length cs /\
    (forall k x o, nth_error cs k = Some x -> nth_error os k = Some o ->
       ((N.of_nat k < lim)%N -> so_rc o = 0%Z /\ so_smlen o = sig_size r + length (c_m x) /\ sm_index r (so_sm o) = N.of_nat k) /\
       ((N.of_nat k + 1 < lim)%N -> signed_message o = mt_sign (row_sp r) a b c d (N.of_nat k) (c_m x) ++ c_m x) /\
       ((lim <= N.of_nat k)%N -> so_rc o = (-2)%Z /\ so_sm o = c_sm x /\ so_smlen o = c_smlen x)).
Proof.
  intros E HE r Hr Hd Hx rnd pk0 sk0 cs pk sk.
  exact (fast_life HE true r Hr (goodm r) (mser HE r Hr) (mkey HE r Hr) (fun a b c d => mstep_few HE r Hr a b c d Hd) rnd pk0 sk0 cs pk sk Hx).
Qed.
Print Assumptions C03_fast_mt_life.
Theorem C03_fast_mt_no_index_reuse : forall E : Env, env_ok E -> forall r, In r (rows true) -> few_layers r -> r_h r < 8 * idx_size r -> forall rnd pk0 sk0 cs pk sk,
  (forall i, (rnd i < 256)%N) ->
  length pk0 = 4 + pk_size r -> length sk0 = 4 + fast_size r -> bytes_ok sk0 ->
  keypair true fast_core pk0 sk0 (r_oid r) rnd = Ok (0%Z, pk, sk) -> Forall (call_ok r) cs ->
  exists sk' os, sign_run true fast_core sk cs = Ok (sk', os) /\ length os = length cs /\
    forall i j oi oj, i < j -> nth_error os i = Some oi -> nth_error os j = Some oj ->
      so_rc oi = 0%Z -> so_rc oj = 0%Z -> sm_index r (so_sm oi) <> sm_index r (so_sm oj).
Proof.
  intros E HE r Hr Hd Hx rnd pk0 sk0 cs pk sk.
  exact (fast_no_reuse HE true r Hr (goodm r) (mser HE r Hr) (mkey HE r Hr) (fun a b c d => mstep_few HE r Hr a b c d Hd) rnd pk0 sk0 cs pk sk Hx).
Qed.
Print Assumptions C03_fast_mt_no_index_reuse.

(** C01 *)
Theorem C01_fast_mt_signed_messages_open : forall E : Env, env_ok E -> forall r, In r (rows true) ->
  forall rnd pk0 sk0 cs m sm smlen mbuf mlen core, (forall i, (rnd i < 256)%N) ->
  length pk0 = 4 + pk_size r -> length sk0 = 4 + fast_size r -> bytes_ok sk0 -> a_core core ->
  (N.of_nat (length cs) + 1 < fast_limit r)%N -> Forall (call_ok r) cs ->
  bytes_ok m -> sig_size r + length m <= length sm -> sig_size r + length m <= length mbuf ->
  exists pk sk sk' os o oo,
    keypair true fast_core pk0 sk0 (r_oid r) rnd = Ok (0%Z, pk, sk) /\
    sign_run true fast_core sk cs = Ok (sk', os) /\
    sign true fast_core sk' sm smlen m = Ok o /\ so_rc o = 0%Z /\ so_smlen o = sig_size r + length m /\
    sign_open true core mbuf mlen (signed_message o) pk = Ok oo /\
    oo_rc oo = 0%Z /\ oo_mlen oo = length m /\ firstn (length m) (oo_m oo) = m.
Proof.
  intros E HE r Hr.
  exact (fast_sign_then_open HE true r Hr (goodm r) (mser HE r Hr) (mkey HE r Hr) (fast_limit r) (mr_lim r Hr) (mstep HE r Hr)).
Qed.
Print Assumptions C01_fast_mt_signed_messages_open.

(** C05 *)
Theorem C05_fast_mt_key_change : forall E : Env, env_ok E -> forall r, In r (rows true) -> forall rnd pk0 sk0 cs pk sk,
  (forall i, (rnd i < 256)%N) ->
  length pk0 = 4 + pk_size r -> length sk0 = 4 + fast_size r -> bytes_ok sk0 ->
  keypair true fast_core pk0 sk0 (r_oid r) rnd = Ok (0%Z, pk, sk) -> Forall (call_ok r) cs ->
  (N.of_nat (length cs) < fast_limit r)%N ->
  exists sk' os, sign_run true fast_core sk cs = Ok (sk', os) /\ length sk' = length sk /\ sk_index r sk' = N.of_nat (length cs) /\
    firstn 4 sk' = firstn 4 sk /\ (forall i, i < 4 -> sk_field r i sk' = sk_field r i sk).
Proof.
  intros E HE r Hr.
  exact (fast_key_change HE true r Hr (goodm r) (mser HE r Hr) (mkey HE r Hr) (fast_limit r) (mr_lim r Hr) (mstep HE r Hr)).
Qed.
Print Assumptions C05_fast_mt_key_change.

(** C02 *)
Theorem C02_refuted_fast_mt : exists E : Env, env_ok E /\ forall r, In r (rows true) -> few_layers r -> r_fn r = SHA2 -> r_n r = 32 ->
  forall rnd pk0 sk0 cs m sm smlen mbuf mlen core, (forall i, (rnd i < 256)%N) -> map rnd (seq 0 32) <> repeat 0%N 32 ->
  length pk0 = 4 + pk_size r -> length sk0 = 4 + fast_size r -> bytes_ok sk0 -> a_core core ->
  (N.of_nat (length cs) + 1 = 2 ^ N.of_nat (r_h r))%N -> Forall (call_ok r) cs ->
  bytes_ok m -> sig_size r + length m <= length sm -> sig_size r + length m <= length mbuf ->
  exists pk sk sk' os o oo,
    keypair true fast_core pk0 sk0 (r_oid r) rnd = Ok (0%Z, pk, sk) /\
    sign_run true fast_core sk cs = Ok (sk', os) /\
    sign true fast_core sk' sm smlen m = Ok o /\ so_rc o = 0%Z /\
    sign_open true core mbuf mlen (signed_message o) pk = Ok oo /\ oo_rc oo = (-1)%Z.
Proof.
  exists zero_env. split; [exact zero_env_ok|]. intros r Hr Hd Hf Hn.
  exact (fast_last_fails true r Hr Hf Hn (@goodm zero_env r) (fun a b c d => @mstep_few zero_env zero_env_ok r Hr a b c d Hd) (@mser zero_env zero_env_ok r Hr) (@mkey zero_env zero_env_ok r Hr)).
Qed.
Print Assumptions C02_refuted_fast_mt.
