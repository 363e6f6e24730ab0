(** Property theorems about the core functions (xmss_core.h) of both cores, called directly
    with a parameter structure initialised from the caller's own choice of values. *)
From Verif Require Import Base ModelParams ModelCommons ModelCore ModelCoreFast SpecRfc SpecParams SpecApi SpecComp SpecFast SpecCustom ProofToy ProofCustom PropApi.
Local Existing Instance ex_env.

(** C55. For every usable choice of hash function, n, w in {4, 16, 256}, padding, height and
    layers, for both cores and any buffers: key generation gives the RFC 8391 public key of
    the first 3n bytes of randomness, and in every history of fewer than [lim] calls the
    j-th call returns 0 and outputs the RFC signature with index j followed by the message,
    which opens to the message under the public key; the secret key always starts with the
    number of calls made and the four n-byte strings. *)
Theorem C55_custom_parameters_round_trip : forall E : Env, env_ok E -> forall c p kp sg lim, custom_ok c -> direct c p kp sg lim ->
  forall rnd pk0 sk0 cs, length pk0 = 2 * cu_n c -> length sk0 = ModelParams.sk_bytes p -> bytes_ok sk0 ->
  (N.of_nat (length cs) < lim)%N -> Forall (fits c) cs ->
  let P := custom_sp c in let n := cu_n c in
  let sks := map rnd (seq 0 n) in let prfk := map rnd (seq n n) in let seed := map rnd (seq (2 * n) n) in let rt := mt_root P sks seed in
  exists sk sk' os, kp pk0 sk0 rnd = Ok (0%Z, rt ++ seed, sk) /\
    firstn (cu_ib c + 4 * n) sk = toByte 0 (cu_ib c) ++ sks ++ prfk ++ rt ++ seed /\
    core_run sg sk cs = Ok (sk', os) /\
    firstn (cu_ib c + 4 * n) sk' = toByte (N.of_nat (length cs)) (cu_ib c) ++ sks ++ prfk ++ rt ++ seed /\ length os = length cs /\
    forall j x o, nth_error cs j = Some x -> nth_error os j = Some o ->
      so_rc o = 0%Z /\ so_smlen o = cu_sig c + length (c_m x) /\
      firstn (so_smlen o) (so_sm o) = mt_sign P sks prfk rt seed (N.of_nat j) (c_m x) ++ c_m x /\
      skipn (so_smlen o) (so_sm o) = skipn (so_smlen o) (c_sm x) /\
      forall buf, so_smlen o <= length buf ->
        exists m', xmssmt_core_sign_open p buf (firstn (so_smlen o) (so_sm o)) (rt ++ seed) = Ok (mkOpen 0 m' (length (c_m x))) /\
          firstn (length (c_m x)) m' = c_m x.
Proof. intros E HE c p kp sg lim Hc Hd rnd pk0 sk0 cs L1 L2 L3 L4 L5. exact (custom_story HE c Hc p kp sg lim rnd pk0 sk0 cs Hd L1 L2 L3 L4 L5). Qed.
Print Assumptions C55_custom_parameters_round_trip.

(** so any two of the cores (and any two BDS parameters) give the same answers (C26, C27 for
    the caller's own parameters) *)
Theorem C55_custom_parameters_cores_agree : forall E : Env, env_ok E -> forall c p1 kp1 sg1 lim1 p2 kp2 sg2 lim2, custom_ok c ->
  direct c p1 kp1 sg1 lim1 -> direct c p2 kp2 sg2 lim2 ->
  forall rnd pk1 sk1 pk2 sk2 cs, length pk1 = 2 * cu_n c -> length sk1 = ModelParams.sk_bytes p1 -> bytes_ok sk1 ->
  length pk2 = 2 * cu_n c -> length sk2 = ModelParams.sk_bytes p2 -> bytes_ok sk2 ->
  (N.of_nat (length cs) < lim1)%N -> (N.of_nat (length cs) < lim2)%N -> Forall (fits c) cs ->
  exists pk k1 k2 k1' k2' os1 os2,
    kp1 pk1 sk1 rnd = Ok (0%Z, pk, k1) /\ kp2 pk2 sk2 rnd = Ok (0%Z, pk, k2) /\
    core_run sg1 k1 cs = Ok (k1', os1) /\ core_run sg2 k2 cs = Ok (k2', os2) /\
    length os1 = length cs /\ length os2 = length cs /\
    (forall j a b, nth_error os1 j = Some a -> nth_error os2 j = Some b -> same_answer a b /\ so_rc a = 0%Z) /\
    firstn (cu_ib c + 4 * cu_n c) k1' = firstn (cu_ib c + 4 * cu_n c) k2'.
Proof.
  intros E HE c p1 kp1 sg1 lim1 p2 kp2 sg2 lim2 Hc D1 D2 rnd pk1 sk1 pk2 sk2 cs A1 A2 A3 B1 B2 B3 L1 L2 Hf.
  destruct (C55_custom_parameters_round_trip E HE c p1 kp1 sg1 lim1 Hc D1 rnd pk1 sk1 cs A1 A2 A3 L1 Hf) as (k1 & k1' & os1 & X1 & _ & X3 & X4 & X5 & X6).
  destruct (C55_custom_parameters_round_trip E HE c p2 kp2 sg2 lim2 Hc D2 rnd pk2 sk2 cs B1 B2 B3 L2 Hf) as (k2 & k2' & os2 & Y1 & _ & Y3 & Y4 & Y5 & Y6).
  eexists _, k1, k2, k1', k2', os1, os2. split; [exact X1|]. split; [exact Y1|]. split; [exact X3|]. split; [exact Y3|]. split; [exact X5|]. split; [exact Y5|].
  split; [|rewrite X4, Y4; reflexivity]. intros j a b Ha Hb.
  assert (Hj : j < length cs) by (rewrite <- X5; apply nth_error_Some; congruence). destruct (nth_error cs j) as [x|] eqn:Ex; [|apply nth_error_None in Ex; exfalso; clear - Ex Hj; lia].
  destruct (X6 j x a Ex Ha) as (U1 & U2 & U3 & U4 & _). destruct (Y6 j x b Ex Hb) as (V1 & V2 & V3 & V4 & _).
  split; [|exact U1]. split; [congruence|]. split; [|congruence]. rewrite <- (firstn_skipn (so_smlen a) (so_sm a)), <- (firstn_skipn (so_smlen b) (so_sm b)).
  rewrite U3, V3, U4, V4, U2, V2. reflexivity.
Qed.
Print Assumptions C55_custom_parameters_cores_agree.

(** C56. Opening with the caller's own parameters: for every public key, every byte string
    of at least the signature length and every buffer, the call returns 0 with the message
    exactly if RFC 8391 verification accepts, and otherwise -1, length 0 and zeros. *)
Theorem C56_custom_parameters_open : forall E : Env, env_ok E -> forall c p kp sg lim, custom_ok c -> direct c p kp sg lim ->
  forall buf sm pk, cu_sig c <= length sm -> bytes_ok (firstn (cu_ib c) sm) -> length pk = 2 * cu_n c -> length sm <= length buf ->
  let n := cu_n c in let msg := skipn (cu_sig c) sm in
  exists rest, length rest = length buf - length msg /\
    xmssmt_core_sign_open p buf sm pk =
    Ok (if mt_verify (custom_sp c) (firstn n pk) (skipn n pk) (firstn (cu_sig c) sm) msg then mkOpen 0 (msg ++ rest) (length msg)
        else mkOpen (-1) (repeat 0%N (length msg) ++ rest) 0).
Proof.
  intros E HE c p kp sg lim Hc Hd buf sm pk H1 H2 H3 H4 n msg. destruct (direct_open HE c Hc p kp sg lim buf sm pk Hd H1 H2 H3 H4) as (m' & A & B).
  exists (skipn (length msg) m'). split; [rewrite skipn_length, B; reflexivity|exact A].
Qed.
Print Assumptions C56_custom_parameters_open.

(** C57. The index with the caller's own parameters (heights up to 60), both cores, on every
    secret key of the right length (its contents arbitrary): in every history of calls that
    return, the k-th call signs with the stored index plus k and stores that plus one, and
    from 2^h on every call is refused with -2.  (The signed message carries the index
    except for the last one, where the reference core has wiped the key too early.) *)
Theorem C57_custom_parameters_count_up : forall E : Env, env_ok E -> forall c p kp sg lim, custom_ok c -> direct c p kp sg lim ->
  cu_h c <= 60 -> cu_h c < 8 * cu_ib c ->
  forall cs sk sk' os, length sk = ModelParams.sk_bytes p -> bytes_ok (firstn (cu_ib c) sk) -> Forall (fits c) cs ->
  core_run sg sk cs = Ok (sk', os) -> let top := (2 ^ N.of_nat (cu_h c))%N in
  length os = length cs /\
  forall k x o, nth_error cs k = Some x -> nth_error os k = Some o -> let i := (cu_index c sk + N.of_nat k)%N in
    ((i < top)%N -> so_rc o = 0%Z /\ cu_index c (so_sk o) = (i + 1)%N /\ so_smlen o = cu_sig c + length (c_m x) /\
       firstn (length (c_m x)) (skipn (cu_sig c) (so_sm o)) = c_m x /\ ((i + 1 < top)%N -> cu_index c (so_sm o) = i)) /\
    ((top <= i)%N -> so_rc o = (-2)%Z /\ (top <= cu_index c (so_sk o))%N).
Proof.
  intros E HE c p kp sg lim Hc Hd Hh Hib cs sk sk' os Hl Hb Hf Hr top.
  destruct (direct_any_run HE c Hc p kp sg lim Hd Hh Hib cs sk sk' os (conj Hl Hb) Hf Hr) as (_ & A & B). split; [exact A|exact B].
Qed.
Print Assumptions C57_custom_parameters_count_up.
(** one call: what happens to the key, also for heights that fill the index bytes *)
Theorem C57_custom_parameters_key_change : forall E : Env, env_ok E -> forall c p kp sg lim, custom_ok c -> direct c p kp sg lim ->
  cu_h c <= 60 -> forall sk x o, length sk = ModelParams.sk_bytes p -> bytes_ok (firstn (cu_ib c) sk) -> fits c x ->
  sg sk (c_sm x) (c_smlen x) (c_m x) = Ok o -> let i := cu_index c sk in let top := (2 ^ N.of_nat (cu_h c))%N in
  length (so_sk o) = length sk /\
  ((top <= i)%N -> so_rc o = (-2)%Z /\ cu_index c (so_sk o) = (256 ^ N.of_nat (cu_ib c) - 1)%N) /\
  ((i < top)%N -> so_rc o = 0%Z /\ cu_index c (so_sk o) = ((i + 1) mod 256 ^ N.of_nat (cu_ib c))%N /\
     forall j, j < 4 -> cu_field c j (so_sk o) = if (i + 1 =? top)%N then repeat 0%N (cu_n c) else cu_field c j sk).
Proof.
  intros E HE c p kp sg lim Hc Hd Hh sk x o Hl Hb Hf Hr i top.
  destruct (direct_any_step HE c Hc p kp sg lim sk x o Hd Hh (conj Hl Hb) Hf Hr) as ((A & _) & HS). split; [congruence|]. cbv zeta in HS. fold i top in HS.
  destruct HS as [(B1 & B2 & B3)|(B1 & B2 & B3 & _ & _ & _ & B7)]; split; intros Hi; try (exfalso; clear - B1 Hi; lia); auto.
Qed.
Print Assumptions C57_custom_parameters_key_change.

(** SHA-512 with n = 64, w = 4, three layers of height 4, BDS parameter 2: all four signers *)
Definition ex_cu : custom := mkCustom SHA2 64 2 64 12 3.
Definition ex_cu_in : xmss_params := mkParams 0 64 64 4 0 0 0 0 0 12 0 3 0 0 0 0 2.
Definition ex_cu1 : custom := mkCustom SHAKE_256 24 8 4 5 1.
Definition ex_cu1_in : xmss_params := mkParams 2 24 4 256 0 0 0 0 0 5 0 1 0 0 0 0 1.
Example ex_cu_ok : custom_ok ex_cu /\ inputs ex_cu ex_cu_in /\ custom_ok ex_cu1 /\ inputs ex_cu1 ex_cu1_in.
Proof.
  split; [|split; [repeat split|split; [|repeat split]]].
  - split; [right; right; split; [reflexivity|discriminate]|]. repeat split; cbn; auto; lia.
  - split; [left; split; [reflexivity|discriminate]|]. repeat split; cbn; auto; lia.
Qed.
Example C55_applies :
  (exists p kp sg, direct ex_cu p kp sg (2 ^ 12)%N /\ f_sk_bytes p = 258%N) /\
  (exists p kp sg, direct ex_cu p kp sg (2 ^ 12)%N /\ f_sk_bytes p = 38281%N) /\
  (exists p kp sg, direct ex_cu1 p kp sg (2 ^ 5)%N /\ f_sk_bytes p = 100%N) /\
  (exists p kp sg, direct ex_cu1 p kp sg (2 ^ 5)%N /\ f_sk_bytes p = 550%N) /\
  cu_ib ex_cu = 2 /\ cu_h ex_cu < 8 * cu_ib ex_cu /\ N.of_nat (cu_sig ex_cu) = (2 + 64 + 3 * (261 + 4) * 64)%N.
Proof.
  destruct ex_cu_ok as (_ & I1 & _ & I2).
  split; [eexists _, _, _; split; [eapply direct_ref_mt; [exact I1|vm_compute; reflexivity]|vm_compute; reflexivity]|].
  split; [eexists _, _, _; split; [eapply (direct_fast_mt ex_cu ex_cu_in); [exact I1|vm_compute; reflexivity| |cbn; lia]|vm_compute; reflexivity]|].
  { split; [cbn; lia|]. split; [right; exists 1; reflexivity|vm_compute; reflexivity]. }
  split; [eexists _, _, _; split; [eapply (direct_ref ex_cu1); [reflexivity|exact I2|vm_compute; reflexivity]|vm_compute; reflexivity]|].
  split; [eexists _, _, _; split; [eapply (direct_fast ex_cu1); [reflexivity|exact I2|vm_compute; reflexivity| |cbn; lia]|vm_compute; reflexivity]|].
  { split; [cbn; lia|]. split; [left; cbn; lia|vm_compute; reflexivity]. }
  split; [vm_compute; reflexivity|]. split; [|vm_compute; reflexivity]. apply Nat.leb_le. vm_compute. reflexivity.
Qed.
(** a history of 20 calls with the fast core and w = 256, and what the theorems say of it *)
Definition ex_cu1_call : call := mkCall [1; 2; 3]%N (repeat 0%N 1000) 0.
Example C57_applies : exists p kp sg pk sk sk' os, direct ex_cu1 p kp sg (2 ^ 5)%N /\ kp (repeat 0%N 48) (repeat 0%N 550) ex_rnd = Ok (0%Z, pk, sk) /\
  core_run sg sk (repeat ex_cu1_call 20) = Ok (sk', os) /\ length os = 20 /\ cu_h ex_cu1 < 8 * cu_ib ex_cu1 /\
  Forall (fits ex_cu1) (repeat ex_cu1_call 20) /\ length (repeat 0%N 550) = ModelParams.sk_bytes p.
Proof.
  destruct C55_applies as (_ & _ & _ & (p & kp & sg & Hd & Hs) & _). destruct ex_cu_ok as (_ & _ & Hc & _).
  assert (Hsk : length (repeat 0%N 550) = ModelParams.sk_bytes p) by (unfold ModelParams.sk_bytes; rewrite Hs, repeat_length; reflexivity).
  assert (Hf : Forall (fits ex_cu1) (repeat ex_cu1_call 20)).
  { apply Forall_forall. intros x Hx. apply repeat_spec in Hx. subst x. apply Nat.leb_le. vm_compute. reflexivity. }
  assert (Hb : bytes_ok (repeat 0%N 550)) by (apply Forall_forall; intros x Hx; apply repeat_spec in Hx; now subst x).
  destruct (C55_custom_parameters_round_trip ex_env ex_env_ok ex_cu1 p kp sg _ Hc Hd ex_rnd (repeat 0%N 48) (repeat 0%N 550) (repeat ex_cu1_call 20)) as (sk & sk' & os & A & _ & B & _ & D & _);
    [reflexivity|exact Hsk|exact Hb|reflexivity|exact Hf|].
  eexists p, kp, sg, _, sk, sk', os. split; [exact Hd|]. split; [exact A|]. split; [exact B|]. split; [exact D|]. split; [apply Nat.leb_le; vm_compute; reflexivity|]. split; [exact Hf|exact Hsk].
Qed.
