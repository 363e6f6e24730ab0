(** C71: how many leaves (WOTS+ public keys) a call computes. *)
From Coq Require Import ZArith.
From Verif Require Import Base ModelParams ModelCore ModelCoreFast ModelXmss SpecRfc SpecParams SpecApi SpecComp SpecFast SpecCost ModelCost.
From Verif Require Import ProofCost5 PropApi PropFast PropMt.
Local Existing Instance ex_env.

(** The counted program is the program: for every input, whatever happens. *)
Theorem C71_counting_changes_nothing : forall (E : Env) mt,
  (forall pk sk oid rnd, out (ref_keypair_cost mt pk sk oid rnd) = keypair mt ref_core pk sk oid rnd) /\
  (forall sk sm smlen m, out (ref_sign_cost mt sk sm smlen m) = sign mt ref_core sk sm smlen m) /\
  (forall pk sk oid rnd, out (fast_keypair_cost mt pk sk oid rnd) = keypair mt fast_core pk sk oid rnd) /\
  (forall sk sm smlen m, out (fast_sign_cost mt sk sm smlen m) = sign mt fast_core sk sm smlen m).
Proof. intros E mt. repeat split; intros; [apply cost_ref_keypair|apply cost_ref_sign|apply cost_fast_keypair|apply cost_fast_sign]. Qed.
Print Assumptions C71_counting_changes_nothing.

(** Key generation: the reference core builds the top tree only, the fast core one tree per
    layer, for every randomness. *)
Theorem C71_keypair_effort : forall (E : Env) mt r, In r (rows mt) -> forall pk sk rnd,
  ((leaves (ref_keypair_cost mt pk sk (r_oid r) rnd) <= tree_leaves r)%N /\
   forall x, keypair mt ref_core pk sk (r_oid r) rnd = Ok x -> leaves (ref_keypair_cost mt pk sk (r_oid r) rnd) = tree_leaves r) /\
  ((leaves (fast_keypair_cost mt pk sk (r_oid r) rnd) <= N.of_nat (r_d r) * tree_leaves r)%N /\
   forall x, keypair mt fast_core pk sk (r_oid r) rnd = Ok x -> leaves (fast_keypair_cost mt pk sk (r_oid r) rnd) = (N.of_nat (r_d r) * tree_leaves r)%N).
Proof. intros E mt r Hr pk sk rnd. split; [exact (ref_keypair_effort mt r Hr pk sk rnd)|exact (fast_keypair_effort mt r Hr pk sk rnd)]. Qed.
Print Assumptions C71_keypair_effort.

(** Signing with the reference core: every tree on the path is built anew, d trees, at every
    index, for every key and message; a refused call builds none. *)
Theorem C71_reference_sign_effort : forall (E : Env) mt r, In r (rows mt) -> forall sk sm smlen m, key_of r (sk_size r) sk ->
  (leaves (ref_sign_cost mt sk sm smlen m) <= N.of_nat (r_d r) * tree_leaves r)%N /\
  (forall o, sign mt ref_core sk sm smlen m = Ok o ->
     leaves (ref_sign_cost mt sk sm smlen m) = if (so_rc o =? 0)%Z then (N.of_nat (r_d r) * tree_leaves r)%N else 0%N).
Proof. exact (@ref_sign_effort). Qed.
Print Assumptions C71_reference_sign_effort.

(** Signing with the fast core, whatever the key contains: at most half a tree height of
    leaves and one (XMSS) or two (XMSSMT) more.  For XMSSMT sets with more layers than half a
    tree height + 1 (20/4, 40/8 and 60/12) this leaves out the calls at which that many trees
    end at once: there it is false (C71_refuted). *)
Theorem C71_fast_sign_effort_partial : forall (E : Env) mt r, In r (rows mt) -> forall sk sm smlen m, key_of r (fast_size r) sk ->
  mt = false \/ r_d r <= r_h r / r_d r / 2 + 1 \/ ~ many_trees_end r (sk_index r sk) ->
  (leaves (fast_sign_cost mt sk sm smlen m) <= sign_effort mt r)%N.
Proof. exact (@fast_sign_effort). Qed.
Print Assumptions C71_fast_sign_effort_partial.
(** which sets need the third case *)
Example C71_sets : forall r, In r (rows true) -> r_h r / r_d r / 2 + 1 < r_d r <-> r_h r / r_d r = 5.
Proof.
  intros r Hr. assert (Hx : forallb (fun r => Bool.eqb (r_h r / r_d r / 2 + 1 <? r_d r) (r_h r / r_d r =? 5)) (rows true) = true) by (vm_compute; reflexivity).
  rewrite forallb_forall in Hx. specialize (Hx r Hr). apply Bool.eqb_prop in Hx. rewrite <- Nat.ltb_lt, <- Nat.eqb_eq, Hx. reflexivity.
Qed.
Example C71_applies : key_of ex_row (fast_size ex_row) (ex_fsk 5) /\ sign_effort false ex_row = 6%N /\ tree_leaves ex_row = 1024%N /\
  key_of ex_row (sk_size ex_row) (ex_sk 5) /\
  (exists o, sign false ref_core (ex_sk 1024) (repeat 0%N 3000) 0 [1; 2; 3]%N = Ok o /\ leaves (ref_sign_cost false (ex_sk 1024) (repeat 0%N 3000) 0 [1; 2; 3]%N) = 0%N).
Proof.
  split; [apply ex_fsk_key; now left|]. split; [vm_compute; reflexivity|]. split; [vm_compute; reflexivity|]. split; [apply ex_sk_key; now left|].
  eexists. split; vm_compute; reflexivity.
Qed.

(** The update counter is unsigned and taken below zero when three trees end at once, as at
    the 2^18-th and 2^19-th signature: that call computes at least 7 leaves instead of at most
    4, for every environment, randomness and history. *)
Theorem C71_refuted : forall E : Env, env_ok E -> forall r, In r (rows true) -> r_h r / r_d r / 2 + 2 <= r_d r ->
  forall rnd pk0 sk0 cs pk sk, (forall i, (rnd i < 256)%N) ->
  length pk0 = 4 + pk_size r -> length sk0 = 4 + fast_size r -> bytes_ok sk0 ->
  keypair true fast_core pk0 sk0 (r_oid r) rnd = Ok (0%Z, pk, sk) -> Forall (call_ok r) cs -> In (N.of_nat (length cs) + 1)%N [2 ^ 18; 2 ^ 19]%N ->
  sign_effort true r = 4%N /\
  exists sk' os, sign_run true fast_core sk cs = Ok (sk', os) /\
    forall x, call_ok r x -> (7 <= leaves (fast_sign_cost true sk' (c_sm x) (c_smlen x) (c_m x)))%N.
Proof. exact (@effort_refuted). Qed.
Print Assumptions C71_refuted.
Example C71_refuted_applies : exists pk sk sk' os,
  keypair true fast_core (repeat 0%N 68) (repeat 0%N 10942) (r_oid ex_mt4) ex_rnd = Ok (0%Z, pk, sk) /\
  sign_run true fast_core sk (repeat ex_mt_call (N.to_nat (2 ^ 18 - 1))) = Ok (sk', os) /\
  (sign_effort true ex_mt4 < 7 <= leaves (fast_sign_cost true sk' (c_sm ex_mt_call) (c_smlen ex_mt_call) (c_m ex_mt_call)))%N.
Proof.
  destruct C27_applies as (pk & kr & kf & kr' & kf' & ors & ofs & A1 & A2 & _).
  exists pk, kf. destruct (C71_refuted ex_env ex_env_ok ex_mt4 (proj1 ex_mt4_in)) with (rnd := ex_rnd) (pk0 := repeat 0%N 68) (sk0 := repeat 0%N 10942)
     (cs := repeat ex_mt_call (N.to_nat (2 ^ 18 - 1))) (pk := pk) (sk := kf) as (B1 & sk' & os & B2 & B3).
  - apply Nat.leb_le. vm_compute. reflexivity.
  - exact ex_rnd_bytes.
  - apply ex_mt4_len.
  - apply ex_mt4_len.
  - apply ex_mt4_bytes.
  - exact A2.
  - apply ex_mt_calls_ok.
  - rewrite repeat_length, N2Nat.id. left. reflexivity.
  - exists sk', os. split; [exact A2|]. split; [exact B2|]. rewrite B1. split; [reflexivity|]. apply B3.
    pose proof (ex_mt_calls_ok 1) as Hx. now inversion Hx.
Qed.

(** Parameter structures filled in by the caller, with BDS parameter k: (th - k)/2 leaves and
    one or two more, when the layers are few. *)
Theorem C71_custom_fast_sign_effort : forall (E : Env) p P k sk sm smlen m, fast_params p P k ->
  (leaves (fast_xmss_core_sign_c p sk sm smlen m) <= N.of_nat ((sp_th P - k) / 2 + 1))%N /\
  (sp_d P <= (sp_th P - k) / 2 + 1 -> (leaves (fast_xmssmt_core_sign_c p sk sm smlen m) <= N.of_nat ((sp_th P - k) / 2 + 2))%N).
Proof. exact (@custom_effort). Qed.
Print Assumptions C71_custom_fast_sign_effort.
Theorem C71_custom_keypair_effort : forall (E : Env) p P k pk sk rnd, fast_params p P k ->
  (forall x, ref_xmssmt_core_keypair p pk sk rnd = Ok x -> leaves (ref_xmssmt_core_keypair_c p pk sk rnd) = (2 ^ N.of_nat (sp_th P))%N) /\
  (forall x, fast_xmssmt_core_keypair p pk sk rnd = Ok x -> leaves (fast_xmssmt_core_keypair_c p pk sk rnd) = (N.of_nat (sp_d P) * 2 ^ N.of_nat (sp_th P))%N).
Proof. exact (@custom_keypair). Qed.
Print Assumptions C71_custom_keypair_effort.
Example C71_custom_applies : exists p, fast_params p (row_sp ex_mt4) 0 /\ sp_th (row_sp ex_mt4) = 5.
Proof. eexists. split; [eapply (fast_oid true); [exact (proj1 ex_mt4_in)|exact (ProofParams.parse_accept_fast true ex_mt4 _ (proj1 ex_mt4_in))]|reflexivity]. Qed.
