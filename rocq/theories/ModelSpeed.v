(** test/speed.c:45-79: the statistics of the benchmark.  Counter readings are 64-bit unsigned. *)
From Verif Require Import Base.

(** speed.c:45-50 cmp_llu, and the qsort of line 54: the C library sorts by it; values that
    compare equal are equal, so every sorting function gives the same array. *)
Definition cmp_llu (a b : N) : Z := if (a <? b)%N then (-1)%Z else if (b <? a)%N then 1%Z else 0%Z.
Fixpoint qsort_insert (x : N) (l : list N) : list N :=
  match l with
  | [] => [x]
  | y :: l' => if (cmp_llu x y <=? 0)%Z then x :: y :: l' else y :: qsort_insert x l'
  end.
Definition qsort (l : list N) : list N := fold_right qsort_insert [] l.

(** speed.c:52-58 median: sorts the caller's array in place; the array and the result *)
Definition median (l : list N) (llen : nat) : res (N * list N) :=
  if length l <? llen then UB else
  let l := qsort (firstn llen l) ++ skipn llen l in
  if negb (llen mod 2 =? 0) then
    let* x := rdc l (llen / 2) in Ok (x, l)
  else
    if llen =? 0 then UB else
    let* x := rdc l (llen / 2 - 1) in
    let* y := rdc l (llen / 2) in
    Ok ((u64 (x + y) / 2)%N, l).

(** speed.c:60-68 average *)
Definition average (t : list N) (tlen : nat) : res N :=
  let* acc := forN tlen 0 (fun i acc => let* x := rdc t i in Ok (u64 (acc + x))) 0%N in
  if tlen =? 0 then UB else Ok (acc / N.of_nat tlen)%N.

(** speed.c:70-79 print_results: the two numbers printed; [tlen-1] is unsigned *)
Definition print_results (t : list N) (tlen : nat) : res (N * N) :=
  if tlen =? 0 then UB else
  let* t := forN (tlen - 1) 0 (fun i t =>
    let* x := rdc t (i + 1) in
    let* y := rdc t i in
    wrc t i (u64 (x + (2 ^ 64 - y)))) t in
  let* (med, t) := median t tlen in
  let* avg := average t (tlen - 1) in
  Ok (med, avg).
