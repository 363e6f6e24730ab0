(** Vocabulary of C73: what a benchmark that reads a counter before each operation measures. *)
From Coq Require Import NArith List Sorted Permutation.
Import ListNotations.

(** the counter never goes back and fits in 64 bits *)
Definition readings (t : list N) : Prop := Sorted N.le t /\ Forall (fun x => (x < 2 ^ 64)%N) t.
(** time between successive readings *)
Fixpoint durations (t : list N) : list N :=
  match t with
  | x :: (y :: _) as t' => (y - x)%N :: durations t'
  | _ => []
  end.
(** [x] is at position [i] (counted from 0) when the values [l] are put in ascending order *)
Definition ranked (i : nat) (l : list N) (x : N) : Prop :=
  exists s, Permutation l s /\ Sorted N.le s /\ nth_error s i = Some x.
(** [x] is the value in the middle of the odd number [2k+1] of values [l] *)
Definition is_median (k : nat) (l : list N) (x : N) : Prop := length l = 2 * k + 1 /\ ranked k l x.
