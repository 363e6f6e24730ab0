(** Several processes running ui/sign.c at the same time on one key file.  No lock is taken
    (ui/sign.c:36 opens the file "r+b" and reads it; lines 92-96 write the key back).
    Simplification: the reads of one process (ui/sign.c:53-85) are one step. *)
From Verif Require Import Base ModelXmss ModelUi.

Inductive job :=
| Waiting (m : bytes)                    (* not started; its message file *)
| Running (kb : list (nat * N)) (out ob : bytes) (todo : list act).  (* key file bytes not yet written, stdout, stdio calls to come *)
(** a job that has exited, after writing [out] to stdout *)
Definition Exited (out : bytes) : job := Running [] out [] [].

Inductive shared_step {E : Env} (mt : bool) (c : core) : bytes * list job -> bytes * list job -> Prop :=
| sh_start : forall f js p m u, nth_error js p = Some (Waiting m) -> ui_sign mt c true (Some f) (Some m) = Ok u ->
    shared_step mt c (f, js) (f, upd js p (Running [] [] [] (ui_acts u)))
| sh_io : forall f js p kb o ob t f' kb' o' ob' t', nth_error js p = Some (Running kb o ob t) ->
    disk_step (mkDisk f kb o ob t) (mkDisk f' kb' o' ob' t') ->
    shared_step mt c (f, js) (f', upd js p (Running kb' o' ob' t')).
Inductive shared_reach {E : Env} (mt : bool) (c : core) (s0 : bytes * list job) : bytes * list job -> Prop :=
| sr_refl : shared_reach mt c s0 s0
| sr_step : forall s1 s2, shared_reach mt c s0 s1 -> shared_step mt c s1 s2 -> shared_reach mt c s0 s2.
