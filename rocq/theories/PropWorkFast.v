(** C75: how many times a call of the fast core runs the hash function. *)
From Coq Require Import ZArith.
From Verif Require Import Base ModelParams ModelCore ModelCoreFast ModelXmss SpecRfc SpecParams SpecApi SpecComp SpecFast SpecCost SpecWork ModelCost ModelWork ModelWorkFast.
From Verif Require Import Lib ProofUtils ProofApi ProofCost5 ProofWorkFast ProofWorkFast4 ProofWorkFast5 PropApi PropFast PropMt PropCost.
Local Existing Instance ex_env.

(** The counted program is the program: for every input, whatever happens. *)
Theorem C75_counting_changes_nothing : forall (E : Env) mt,
  (forall pk sk oid rnd, out (fast_keypair_work mt pk sk oid rnd) = keypair mt fast_core pk sk oid rnd) /\
  (forall sk sm smlen m, out (fast_sign_work mt sk sm smlen m) = sign mt fast_core sk sm smlen m).
Proof. intros E mt. split; intros; [apply work_fast_keypair|apply work_fast_sign]. Qed.
Print Assumptions C75_counting_changes_nothing.

(** Key generation: a tree for each layer and the signatures of the roots between them, for
    every randomness and whatever the buffers hold.  For XMSS the two bounds are one number. *)
Theorem C75_keypair_hashes : forall (E : Env) mt r, In r (rows mt) -> forall pk sk rnd,
  (hashes (fast_keypair_work mt pk sk (r_oid r) rnd) <= fast_key_max r)%N /\
  (forall x, keypair mt fast_core pk sk (r_oid r) rnd = Ok x -> (fast_key_min r <= hashes (fast_keypair_work mt pk sk (r_oid r) rnd))%N).
Proof. exact (@fast_keypair_hashes). Qed.
Print Assumptions C75_keypair_hashes.
Example C75_xmss_exact : forall r, In r (rows false) -> fast_key_min r = tree_hashes r /\ fast_key_max r = tree_hashes r.
Proof.
  intros r Hr. assert (Hx : forallb (fun r => (fast_key_min r =? tree_hashes r)%N && (fast_key_max r =? tree_hashes r)%N) (rows false) = true) by (vm_compute; reflexivity).
  rewrite forallb_forall in Hx. specialize (Hx r Hr). apply andb_true_iff in Hx as [A B]. apply N.eqb_eq in A, B. now split.
Qed.

(** Signing: whatever the key contains, intact or torn, at most this many hash calls: half a
    tree height of tree-hash updates where the reference core builds d trees.  As with the
    leaves of C71, for 20/4, 40/8 and 60/12 the calls at which many trees end at once are left
    out: there it is false (C75_refuted). *)
Theorem C75_fast_sign_bounded_partial : forall (E : Env) mt r, In r (rows mt) -> forall sk sm smlen m, key_of r (fast_size r) sk ->
  mt = false \/ r_d r <= r_h r / r_d r / 2 + 1 \/ ~ many_trees_end r (sk_index r sk) ->
  (hashes (fast_sign_work mt sk sm smlen m) <= fast_sign_hashes mt r)%N.
Proof. exact (@fast_sign_hashes_max). Qed.
Print Assumptions C75_fast_sign_bounded_partial.

(** A refused call (return code -2) hashes nothing. *)
Theorem C75_refused_hashes_nothing : forall (E : Env) mt r, In r (rows mt) -> forall sk sm smlen m o, key_of r (fast_size r) sk ->
  sign mt fast_core sk sm smlen m = Ok o -> so_rc o = (-2)%Z -> hashes (fast_sign_work mt sk sm smlen m) = 0%N.
Proof. exact (@fast_refused). Qed.
Print Assumptions C75_refused_hashes_nothing.
Example C75_refused_applies : key_of ex_row (fast_size ex_row) (ex_fsk 1024) /\
  exists o, sign false fast_core (ex_fsk 1024) (repeat 0%N 3000) 0 [1; 2; 3]%N = Ok o /\ so_rc o = (-2)%Z.
Proof.
  destruct C44_fast_applies as (A & B & _). split; [exact A|]. eexists. split; [|].
  - exact (C44_fast_refused_key_is_wiped ex_env false ex_row ex_row_in _ (repeat 0%N 3000) 0 [1; 2; 3]%N A B).
  - reflexivity.
Qed.

(** The leaves of C71 are paid for: a call that returns has run the hash function leaf_hashes
    times for each of them, whatever the key holds behind the number of its parameter set. *)
Theorem C75_leaves_cost : forall (E : Env) mt r, In r (rows mt) -> forall sk sm smlen m o, firstn 4 sk = toByte (r_oid r) 4 ->
  sign mt fast_core sk sm smlen m = Ok o ->
  (leaves (fast_sign_cost mt sk sm smlen m) * leaf_hashes r <= hashes (fast_sign_work mt sk sm smlen m))%N.
Proof.
  intros E mt r Hr sk sm smlen m o Hk. apply (leaves_hashes mt r Hr).
  rewrite <- (firstn_skipn 4 sk), Hk. exact (row_oid_bytes mt r _ Hr).
Qed.
Print Assumptions C75_leaves_cost.

(** A signature made costs, besides its leaves, at least the randomness, the message and the
    starts of the chains of one one-time signature. *)
Theorem C75_signature_cost : forall (E : Env) mt r, In r (rows mt) -> forall sk sm smlen m o, firstn 4 sk = toByte (r_oid r) 4 ->
  sign mt fast_core sk sm smlen m = Ok o -> so_rc o = 0%Z ->
  (2 + chains r + leaves (fast_sign_cost mt sk sm smlen m) * leaf_hashes r <= hashes (fast_sign_work mt sk sm smlen m))%N.
Proof.
  intros E mt r Hr sk sm smlen m o Hk. apply (signed_hashes mt r Hr).
  rewrite <- (firstn_skipn 4 sk), Hk. exact (row_oid_bytes mt r _ Hr).
Qed.
Print Assumptions C75_signature_cost.
Example C75_signature_cost_applies : exists kf o, firstn 4 kf = toByte (r_oid ex_mt4) 4 /\
  sign true fast_core kf (repeat 0%N 9300) 0 [1; 2; 3]%N = Ok o /\ so_rc o = 0%Z.
Proof.
  destruct (C01_fast_mt_signed_messages_open ex_env ex_env_ok ex_mt4 (proj1 ex_mt4_in) ex_rnd (repeat 0%N 68) (repeat 0%N 10942) (repeat ex_mt_call 40000) [1; 2; 3]%N
    (repeat 0%N 9300) 0 (repeat 0%N 9300) 0 ref_core ex_rnd_bytes (proj2 (proj2 ex_mt4_len)) (proj1 ex_mt4_len) (ex_mt4_bytes _))
    as (pk & kf & kf' & os & o & oo & A1 & A2 & A3 & A4 & _).
  - now left.
  - rewrite repeat_length. vm_compute. reflexivity.
  - apply ex_mt_calls_ok.
  - repeat constructor.
  - apply Nat.leb_le. vm_compute. reflexivity.
  - apply Nat.leb_le. vm_compute. reflexivity.
  - exists kf', o. split; [|split; [exact A3|exact A4]].
    apply (run_oid true fast_core (toByte (r_oid ex_mt4) 4) (repeat ex_mt_call 40000) kf kf' os); [now rewrite toByte_length| |exact A2].
    exact (keypair_oid true fast_core _ _ _ _ _ _ A1).
Qed.

(** Where three trees end at once in 20/4, 40/8 and 60/12 (the 2^18-th and the 2^19-th
    signature) the bound does not hold: that call hashes more, for every environment,
    randomness and history. *)
Theorem C75_refuted : forall E : Env, env_ok E -> forall r, In r (rows true) -> r_h r / r_d r / 2 + 2 <= r_d r ->
  forall rnd pk0 sk0 cs pk sk, (forall i, (rnd i < 256)%N) ->
  length pk0 = 4 + pk_size r -> length sk0 = 4 + fast_size r -> bytes_ok sk0 ->
  keypair true fast_core pk0 sk0 (r_oid r) rnd = Ok (0%Z, pk, sk) -> Forall (call_ok r) cs -> In (N.of_nat (length cs) + 1)%N [2 ^ 18; 2 ^ 19]%N ->
  exists sk' os, sign_run true fast_core sk cs = Ok (sk', os) /\
    forall x, call_ok r x -> (fast_sign_hashes true r < hashes (fast_sign_work true sk' (c_sm x) (c_smlen x) (c_m x)))%N.
Proof.
  intros E HE r Hr Hm rnd pk0 sk0 cs pk sk Hb Lp Ls Bs Hk Hok Hi.
  destruct (C71_refuted E HE r Hr Hm rnd pk0 sk0 cs pk sk Hb Lp Ls Bs Hk Hok Hi) as (_ & sk' & os & Hrun & Hlv).
  destruct (five_hashes r Hr Hm) as [H7 HL].
  exists sk', os. split; [exact Hrun|]. intros x Hx.
  destruct (C27_fast_xmssmt_is_reference_partial E HE r rnd (repeat 0%N (4 + pk_size r)) (repeat 0%N (4 + sk_size r)) pk0 sk0 (cs ++ [x]) Hr Hb)
    as (pk2 & kr & kf & kr' & kf' & ors & ofs & _ & K2 & _ & _ & _ & R2 & _).
  - apply repeat_length.
  - apply repeat_length.
  - exact Lp.
  - exact Ls.
  - exact Bs.
  - rewrite app_length. cbn [length]. destruct Hi as [A|[A|[]]]; change (2 ^ 18)%N with 262144%N in A; change (2 ^ 19)%N with 524288%N in A; change (2 ^ 20)%N with 1048576%N in HL; lia.
  - apply Forall_app. split; [exact Hok|now repeat constructor].
  - assert (Ek : kf = sk) by congruence. subst kf.
    destruct (sign_run_snoc true fast_core x cs sk sk' os kf' ofs Hrun R2) as [o Ho].
    assert (Hoid : firstn 4 sk' = toByte (r_oid r) 4).
    { apply (run_oid true fast_core (toByte (r_oid r) 4) cs sk sk' os); [now rewrite toByte_length| |exact Hrun].
      exact (keypair_oid true fast_core pk0 sk0 (r_oid r) rnd pk sk Hk). }
    pose proof (C75_leaves_cost E true r Hr sk' (c_sm x) (c_smlen x) (c_m x) o Hoid Ho) as Hc.
    eapply N.lt_le_trans; [exact H7|]. etransitivity; [|exact Hc]. apply N.mul_le_mono_r, Hlv, Hx.
Qed.
Print Assumptions C75_refuted.

(** The theorems meet real keys: an XMSS key of the fast core, the numbers, and the history of
    C71_refuted_applies. *)
Example C75_applies : key_of ex_row (fast_size ex_row) (ex_fsk 5) /\ fast_sign_hashes false ex_row = 23424%N /\ sign_hashes ex_row = 3433480%N /\
  fast_key_min ex_mt4 = 428985%N /\ fast_key_max ex_mt4 = 438030%N.
Proof. split; [apply ex_fsk_key; now left|]. repeat split; vm_compute; reflexivity. Qed.
Example C75_refuted_applies : exists pk sk sk' os,
  keypair true fast_core (repeat 0%N 68) (repeat 0%N 10942) (r_oid ex_mt4) ex_rnd = Ok (0%Z, pk, sk) /\
  sign_run true fast_core sk (repeat ex_mt_call (N.to_nat (2 ^ 18 - 1))) = Ok (sk', os) /\
  (fast_sign_hashes true ex_mt4 < hashes (fast_sign_work true sk' (c_sm ex_mt_call) (c_smlen ex_mt_call) (c_m ex_mt_call)))%N.
Proof.
  destruct C27_applies as (pk & kr & kf & kr' & kf' & ors & ofs & A1 & A2 & _).
  exists pk, kf. destruct (C75_refuted ex_env ex_env_ok ex_mt4 (proj1 ex_mt4_in)) with (rnd := ex_rnd) (pk0 := repeat 0%N 68) (sk0 := repeat 0%N 10942)
     (cs := repeat ex_mt_call (N.to_nat (2 ^ 18 - 1))) (pk := pk) (sk := kf) as (sk' & os & B2 & B3).
  - apply Nat.leb_le. vm_compute. reflexivity.
  - exact ex_rnd_bytes.
  - apply ex_mt4_len.
  - apply ex_mt4_len.
  - apply ex_mt4_bytes.
  - exact A2.
  - apply ex_mt_calls_ok.
  - rewrite repeat_length, N2Nat.id. left. reflexivity.
  - exists sk', os. split; [exact A2|]. split; [exact B2|]. apply B3.
    pose proof (ex_mt_calls_ok 1) as Hx. now inversion Hx.
Qed.
