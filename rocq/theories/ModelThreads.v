(** randombytes.c run by several threads of one process.  The static descriptor [fd]
    (randombytes.c:8) is shared and unprotected.  A state is advanced one access to shared state
    or one system call at a time, in any order of the threads.  Simplifications: loads and stores
    of the int [fd] are atomic (C11 calls the race undefined); the kernel copies the bytes of one
    read in one step; sleep() does nothing. *)
From Verif Require Import Base.

(** Where a thread is. *)
Inductive place :=
| AtCheck                    (** randombytes.c:14 [if (fd == -1)] *)
| AtOpen                     (** :16 the call of open *)
| AtStore (v : option nat)   (** :16 the assignment of its result to fd ([None]: -1) *)
| AtTest (v : option nat)    (** :17 [if (fd != -1)]; [v] is what this thread stored *)
| AtLoop (c : option nat)    (** :24 [while (xlen > 0)], taking fd for the call of read: [Some k] if the value k just
                                 tested may still be in a register *)
| AtRead (f : option nat)    (** :32 the call of read with descriptor [f] *)
| Returned.
(** a thread inside randombytes(x, xlen): the current values of x and xlen *)
Record thread := mkThread { th_at : place; th_x : nat; th_len : N }.
Record world := mkWorld {
  w_fd : option nat;         (** randombytes.c:8, [None] is -1 *)
  w_used : nat;              (** number of bytes /dev/urandom has delivered *)
  w_mem : bytes;             (** the memory of the process *)
  w_th : list thread }.

(** What the operating system and the compiler decide in one step of one thread: which thread,
    what open returns, how many bytes read has ready ([None]: error; 0: end of file), and
    whether lines 17 and 32 load fd again or use the value the thread just stored or tested. *)
Record event := mkEvent { e_th : nat; e_open : option nat; e_read : option nat; e_reload : bool }.

Definition set_th (w : world) (t : nat) (th : thread) : world :=
  mkWorld (w_fd w) (w_used w) (w_mem w) (upd (w_th w) t th).

(** One step of thread [t] in state [th]; the device delivers the bytes dev 0, dev 1, ... *)
Definition advance (dev : nat -> N) (w : world) (e : event) (th : thread) : res world :=
  let t := e_th e in
  let go p := Ok (set_th w t (mkThread p (th_x th) (th_len th))) in
  match th_at th with
  | AtCheck => go (match w_fd w with None => AtOpen | Some k => AtLoop (Some k) end)
  | AtOpen => go (AtStore (e_open e))
  | AtStore v => Ok (mkWorld v (w_used w) (w_mem w) (upd (w_th w) t (mkThread (AtTest v) (th_x th) (th_len th))))
  | AtTest v => go (match (if e_reload e then w_fd w else v) with None => AtOpen | Some k => AtLoop (Some k) end)
  | AtLoop c => go (if (th_len th =? 0)%N then Returned else AtRead (if e_reload e then w_fd w else match c with Some k => Some k | None => w_fd w end))
  | AtRead f =>
      (* :25-30 *)
      let i := if (th_len th <? 1048576)%N then th_len th else 1048576%N in
      match f, e_read e with
      | Some _, Some c =>
          let k := Nat.min c (N.to_nat i) in
          if k <? 1 then go (AtLoop None) else
          let* mem := wr (w_mem w) (th_x th) (map dev (seq (w_used w) k)) in
          Ok (mkWorld (w_fd w) (w_used w + k) mem
                (upd (w_th w) t (mkThread (AtLoop None) (th_x th + k) (th_len th - N.of_nat k))))
      | _, _ => go (AtLoop None)
      end
  | Returned => Ok w
  end.
Definition step (dev : nat -> N) (w : world) (e : event) : res world :=
  match nth_error (w_th w) (e_th e) with Some th => advance dev w e th | None => Ok w end.
Fixpoint steps (dev : nat -> N) (w : world) (es : list event) : res world :=
  match es with [] => Ok w | e :: es => let* w := step dev w e in steps dev w es end.
(** the first [T] events of an infinite execution *)
Definition prefix (ev : nat -> event) (T : nat) : list event := map ev (seq 0 T).
(** all threads at the beginning of their calls randombytes(x, len) *)
Definition start (fd : option nat) (mem : bytes) (calls : list (nat * N)) : world :=
  mkWorld fd 0 mem (map (fun c => mkThread AtCheck (fst c) (snd c)) calls).
