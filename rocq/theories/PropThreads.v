(** Property theorems: randombytes and key generation in several threads. *)
From Verif Require Import Base ModelUtils ModelParams ModelCommons ModelCore ModelCoreFast ModelXmss SpecRfc SpecParams SpecApi SpecFast ModelThreads SpecThreads.
From Verif Require ProofThreads ProofThreads2 ProofThreads3.
From Verif Require Import PropApi.

(** C67: any number of threads in randombytes at the same time, whatever the order of their steps
    and whatever the operating system answers (failing opens and reads, short reads, a second
    thread's failing open overwriting the descriptor): no access outside the buffers, every buffer
    is filled from its start with bytes of the device, in order, no delivered byte is used twice
    (in one thread or in two) or lost, a call returns only when its buffer is full, and no other memory changes. *)
Theorem C67_threads_share_no_random_bytes : forall dev mem calls fd es, separate mem calls ->
  exists w got src, steps dev (start fd mem calls) es = Ok w /\ served dev mem calls w got src.
Proof. intros dev mem calls fd es Hs. exact (ProofThreads.threads_safe dev mem calls Hs fd es). Qed.
Print Assumptions C67_threads_share_no_random_bytes.

(** C67: under every fair schedule, if from some time on the device can be opened and read, every
    call returns, even if another thread's failing open has overwritten the shared descriptor with -1. *)
Theorem C67_threads_return : forall dev mem calls fd ev, separate mem calls -> fair ev (length calls) -> recovers ev ->
  exists T, forall T', T <= T' -> exists w, steps dev (start fd mem calls) (prefix ev T') = Ok w /\ forall t, t < length calls -> returned w t.
Proof. intros dev mem calls fd ev. exact (ProofThreads2.threads_live dev fd mem calls ev). Qed.
Print Assumptions C67_threads_return.

(** C67: keys generated in different threads at the same time: each is made from bytes of the
    device in order, and no delivered byte is used for two keys, nor twice in one. *)
Theorem C67_concurrent_keys : forall E : Env, env_ok E -> forall mt r, In r (rows mt) -> forall core lim size, signer r core lim size ->
  forall dev mem calls fd es, (forall i, (dev i < 256)%N) -> bytes_ok mem -> separate mem calls ->
  exists w src, steps dev (start fd mem calls) es = Ok w /\
    (forall t u x y len len' j k, nth_error calls t = Some (x, len) -> nth_error calls u = Some (y, len') -> returned w t -> returned w u ->
       j < N.to_nat len -> k < N.to_nat len' -> src t j = src u k -> t = u /\ j = k) /\
    forall t x, nth_error calls t = Some (x, N.of_nat (3 * r_n r)) -> returned w t -> forall pk0 sk0,
      length pk0 = 4 + pk_size r -> length sk0 = 4 + size -> bytes_ok sk0 ->
      exists pk sk, keypair mt core pk0 sk0 (r_oid r) (fun j => nth (x + j) (w_mem w) 0%N) = Ok (0%Z, pk, sk) /\
        sk_field r 0 sk = map (fun j => dev (src t j)) (seq 0 (r_n r)) /\
        sk_field r 1 sk = map (fun j => dev (src t j)) (seq (r_n r) (r_n r)) /\
        sk_field r 3 sk = map (fun j => dev (src t j)) (seq (2 * r_n r) (r_n r)).
Proof. intros E HE mt r Hr core lim size Hs dev mem calls fd es. exact (ProofThreads3.threads_keys HE mt r Hr core lim size Hs dev mem calls fd es). Qed.
Print Assumptions C67_concurrent_keys.

(** e.g. two threads filling 96 bytes each, taking turns: thread 0's first open succeeds, thread 1's fails
    and overwrites the descriptor; both calls return, with interleaved bytes of the device *)
Definition ex_mem : bytes := repeat 7%N 200.
Definition ex_threads : list (nat * N) := [(0, 96%N); (100, 96%N)].
Definition ex_turns (T : nat) : event := mkEvent (T mod 2) (if T <? 4 then (if T mod 2 =? 0 then Some 3 else None) else Some 4) (Some 40) (T <? 5).
Example C67_separate : separate ex_mem ex_threads.
Proof.
  split.
  - intros [|[|t]] x len Ht; cbn in Ht; [injection Ht as <- <-|injection Ht as <- <-|destruct t; discriminate]; apply Nat.leb_le; reflexivity.
  - intros [|[|t]] [|[|u]] x len y len' Hne Ht Hu; cbn in Ht, Hu; try congruence; try (destruct t; discriminate); try (destruct u; discriminate);
      injection Ht as <- <-; injection Hu as <- <-; [left|right]; apply Nat.leb_le; reflexivity.
Qed.
Example C67_fair : fair ex_turns (length ex_threads) /\ recovers ex_turns.
Proof.
  split.
  - intros t T Ht. change (t < 2) in Ht. cbn [ex_turns e_th]. exists (2 * T + t). split; [lia|]. cbn [e_th ex_turns]. replace (2 * T + t) with (t + T * 2) by lia. rewrite Nat.mod_add by lia. apply Nat.mod_small, Ht.
  - exists 4. intros T HT. cbn [ex_turns e_open e_read]. destruct (Nat.ltb_spec T 4); [lia|]. split; [discriminate|]. exists 40. split; [reflexivity|lia].
Qed.
Example C67_run : exists w, steps (fun i => N.of_nat (i mod 251)) (start None ex_mem ex_threads) (prefix ex_turns 30) = Ok w /\
  (forall t, t < 2 -> returned w t) /\ w_used w = 192 /\ nth 0 (w_mem w) 0%N = 0%N /\ nth 100 (w_mem w) 0%N = 80%N /\ nth 80 (w_mem w) 0%N = 120%N /\ nth 96 (w_mem w) 0%N = 7%N.
Proof.
  destruct (steps (fun i => N.of_nat (i mod 251)) (start None ex_mem ex_threads) (prefix ex_turns 30)) as [w| |] eqn:Ew; [|vm_compute in Ew; discriminate Ew..].
  exists w. split; [reflexivity|]. vm_compute in Ew. injection Ew as <-.
  split; [intros [|[|t]] Ht; [eexists; split; reflexivity..|lia]|repeat split; reflexivity].
Qed.
