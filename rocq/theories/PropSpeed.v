(** C73: the numbers test/speed.c prints. *)
From Coq Require Import Sorted Permutation.
From Verif Require Import Base ModelSpeed SpecSpeed ProofSpeed.

(** The printed average is the mean duration: the time from the first to the last reading, by
    the number of operations in between. *)
Theorem C73_average : forall t, readings t -> 2 <= length t ->
  exists med, print_results t (length t) = Ok (med, ((last t 0 - hd 0 t) / N.of_nat (length t - 1))%N).
Proof. exact (@average_right). Qed.
Print Assumptions C73_average.

(** The printed median, exactly.  The property asks for the median of the durations; what is
    missing is shown by C73_refuted_median. Even number of readings: halfway from the median to
    the next larger duration; odd number: the larger one of the two middle durations. *)
Theorem C73_median_partial : forall k t, readings t -> 1 <= k ->
  (length t = 2 * k + 2 -> exists m next avg, is_median k (durations t) m /\ ranked (k + 1) (durations t) next /\ (m <= next)%N /\
     print_results t (length t) = Ok ((m + (next - m) / 2)%N, avg)) /\
  (length t = 2 * k + 1 -> exists x avg, ranked k (durations t) x /\ print_results t (length t) = Ok (x, avg)).
Proof. intros k t Hr Hk. split; [exact (median_printed k t Hr Hk)|exact (median_odd k t Hr Hk)]. Qed.
Print Assumptions C73_median_partial.

(** Whenever the duration after the median is larger by two or more, the printed median is
    larger than the median.  With two readings it even mixes the duration with the value of the
    counter, and with one reading the average divides by zero. *)
Theorem C73_refuted_median :
  (forall k t m next, readings t -> 1 <= k -> is_median k (durations t) m -> ranked (k + 1) (durations t) next -> (m + 2 <= next)%N ->
     exists p avg, print_results t (length t) = Ok (p, avg) /\ (m < p)%N) /\
  (forall x y, (x <= y < 2 ^ 63)%N -> print_results [x; y] 2 = Ok (((y - x + y) / 2)%N, (y - x)%N)) /\
  (forall x, print_results [x] 1 = UB).
Proof. split; [exact median_wrong|]. split; [exact two_readings|]. intros x. reflexivity. Qed.
Print Assumptions C73_refuted_median.

(** four readings: the durations are 10, 1000, 20; median 20, printed 510 *)
Definition ex_t : list N := [5000; 5010; 6010; 6030]%N.
Lemma ex_t_ok : readings ex_t.
Proof. split; [repeat constructor; reflexivity || discriminate|repeat constructor]. Qed.
Lemma ex_t_median : is_median 1 (durations ex_t) 20%N /\ ranked 2 (durations ex_t) 1000%N.
Proof.
  assert (Hp : Permutation (durations ex_t) [10; 20; 1000]%N) by (cbn; apply perm_skip, perm_swap).
  assert (Hs : Sorted N.le [10; 20; 1000]%N) by (repeat constructor; discriminate).
  split; [split; [reflexivity|]|]; exists [10; 20; 1000]%N; auto.
Qed.
Example C73_applies : print_results ex_t 4 = Ok (510, 343)%N /\ (exists p avg, print_results ex_t (length ex_t) = Ok (p, avg) /\ (20 < p)%N) /\
  exists med, print_results ex_t (length ex_t) = Ok (med, 343%N).
Proof.
  split; [reflexivity|]. split.
  - apply (proj1 C73_refuted_median 1 ex_t 20%N 1000%N ex_t_ok ltac:(auto) (proj1 ex_t_median) (proj2 ex_t_median)). discriminate.
  - exact (C73_average ex_t ex_t_ok ltac:(cbn; lia)).
Qed.
