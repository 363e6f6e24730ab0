(** Vocabulary for the command-line tools. *)
From Verif Require Import Base ModelXmss ModelUi.

(** The crash states of a tool run: any disk reachable by executing a prefix of its stdio
    calls, with stdio flushing whenever it likes. *)
Definition crash_state (keyfile : bytes) (u : ui_out) (s : disk) : Prop :=
  disk_reach (mkDisk keyfile [] [] [] (ui_acts u)) s.
(** The run came to its end: the key file afterwards and what stdout received. *)
Definition completed (keyfile : bytes) (u : ui_out) (keyfile' out : bytes) : Prop :=
  crash_state keyfile u (mkDisk keyfile' [] out [] []).

(** Successive completed runs of the sign tool on one key file: messages, key file in the
    end, outputs. *)
Inductive session {E : Env} (mt : bool) (c : core) : bytes -> list bytes -> bytes -> list bytes -> Prop :=
| ses_nil : forall kf, session mt c kf [] kf []
| ses_cons : forall kf m ms u kf1 out kf2 outs,
    ui_sign mt c true (Some kf) (Some m) = Ok u -> ui_exit u = 0%Z -> completed kf u kf1 out ->
    session mt c kf1 ms kf2 outs -> session mt c kf (m :: ms) kf2 (out :: outs).

(** Runs of the sign tool on one key file, each of which may be stopped anywhere (or come to
    its end): for every run the key file it found, the message, and the state in which it stopped. *)
Inductive runs {E : Env} (mt : bool) (c : core) : bytes -> list (bytes * bytes * disk) -> Prop :=
| runs_nil : forall kf, runs mt c kf []
| runs_cons : forall kf m u s l,
    ui_sign mt c true (Some kf) (Some m) = Ok u -> crash_state kf u s ->
    runs mt c (d_key s) l -> runs mt c kf ((kf, m, s) :: l).
