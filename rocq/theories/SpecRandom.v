(** What randombytes should do, in terms of the reads that the operating system served. *)
From Verif Require Import Base ModelRandom.

(** POSIX read: never more than requested. *)
Definition reads_ok (o : os) : Prop := forall t k d, os_read o t k = Some d -> length d <= k.
(** The device does not fail for ever: later reads and opens eventually succeed. *)
Definition eventually_serves (o : os) : Prop :=
  (exists t, open_ok o t = true) /\
  forall t k, 0 < k -> exists t' d, t <= t' /\ os_read o t' k = Some d /\ 0 < length d.

(** the data delivered by calls number t, t+1, ... asking for [ks] bytes *)
Fixpoint deliveries (o : os) (t : nat) (ks : list nat) : list bytes :=
  match ks with
  | [] => []
  | k :: ks' => match os_read o t k with Some d => d | None => [] end :: deliveries o (S t) ks'
  end.
(** every call asks for what is still missing, at most 1 MiB *)
Fixpoint asked (o : os) (t : nat) (missing : N) (ks : list nat) : Prop :=
  match ks with
  | [] => missing = 0%N
  | k :: ks' => missing <> 0%N /\ k = N.to_nat (N.min missing 1048576) /\
      asked o (S t) (missing - N.of_nat (length (match os_read o t k with Some d => d | None => [] end)))%N ks'
  end.
