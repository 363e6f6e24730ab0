(** What several threads calling randombytes may rely on. *)
From Verif Require Import Base ModelThreads.

(** the calls randombytes(x, len) fill separate parts of the memory *)
Definition separate (mem : bytes) (calls : list (nat * N)) : Prop :=
  (forall t x len, nth_error calls t = Some (x, len) -> x + N.to_nat len <= length mem) /\
  forall t u x len y len', t <> u -> nth_error calls t = Some (x, len) -> nth_error calls u = Some (y, len') ->
    x + N.to_nat len <= y \/ y + N.to_nat len' <= x.
Definition returned (w : world) (t : nat) : Prop := exists th, nth_error (w_th w) t = Some th /\ th_at th = Returned.
(** [got t] bytes of the buffer of call [t] are filled, byte [j] with number [src t j] of the bytes
    delivered by the device; no delivered byte is used twice or lost, and nothing else is written *)
Record served (dev : nat -> N) (mem : bytes) (calls : list (nat * N)) (w : world) (got : nat -> nat) (src : nat -> nat -> nat) : Prop := {
  served_length : length (w_mem w) = length mem;
  served_all : forall t x len, nth_error calls t = Some (x, len) -> got t <= N.to_nat len /\ (returned w t -> got t = N.to_nat len);
  served_bytes : forall t x len j, nth_error calls t = Some (x, len) -> j < got t -> nth (x + j) (w_mem w) 0%N = dev (src t j) /\ src t j < w_used w;
  served_order : forall t x len j k, nth_error calls t = Some (x, len) -> j < k -> k < got t -> src t j < src t k;
  served_once : forall t u j k, t < length calls -> u < length calls -> j < got t -> k < got u -> src t j = src u k -> t = u /\ j = k;
  served_none_lost : forall p, p < w_used w -> exists t j, t < length calls /\ j < got t /\ src t j = p;
  served_rest : forall i, (forall t x len, nth_error calls t = Some (x, len) -> i < x \/ x + got t <= i) -> nth i (w_mem w) 0%N = nth i mem 0%N }.
(** every thread gets a turn again and again *)
Definition fair (ev : nat -> event) (threads : nat) : Prop := forall t T, t < threads -> exists T', T <= T' /\ e_th (ev T') = t.
(** from some time on, open succeeds and read on an open descriptor delivers at least one byte *)
Definition recovers (ev : nat -> event) : Prop :=
  exists T, forall T', T <= T' -> e_open (ev T') <> None /\ exists c, e_read (ev T') = Some c /\ 0 < c.
