(** Model of randombytes.c.  The operating system is an oracle:
    [open_ok t]  - whether the t-th call of open("/dev/urandom") succeeds;
    [os_read t k] - the result of the t-th call of read(fd, x, k): [None] for an error
                    (return value -1), [Some data] for the bytes returned (length 0 is EOF). *)
From Verif Require Import Base.

Record os := mkOs { open_ok : nat -> bool; os_read : nat -> nat -> option bytes }.

(** randombytes.c:16-24: [for (;;)] until open succeeds; on fuel. *)
Fixpoint open_loop (o : os) (fuel t : nat) : res nat :=
  match fuel with
  | O => NoFuel
  | S f => if open_ok o t then Ok (S t) else open_loop o f (S t)
  end.

(** randombytes.c:26-43: the read loop.  [x] is the destination buffer, [pos] the
    current write position, [xlen] the remaining length, [t] counts read calls. *)
Fixpoint read_loop (o : os) (fuel t : nat) (x : bytes) (pos : nat) (xlen : N) : res (bytes * nat) :=
  if (xlen =? 0)%N then Ok (x, t) else
  match fuel with
  | O => NoFuel
  | S f =>
      let i := if (xlen <? 1048576)%N then xlen else 1048576%N in
      match os_read o t (N.to_nat i) with
      | None => read_loop o f (S t) x pos xlen
      | Some data =>
          if length data <? 1 then read_loop o f (S t) x pos xlen
          else
            let* x := wr x pos data in
            read_loop o f (S t) x (pos + length data) (xlen - N.of_nat (length data))%N
      end
  end.

(** randombytes.c:10-44.  [fd] tells whether the static descriptor is already open;
    the result is the buffer, the descriptor state and the number of read calls made. *)
Definition randombytes (o : os) (fuel : nat) (fd : bool) (x : bytes) (xlen : N) : res (bytes * bool * nat) :=
  let* _ := (if fd then Ok 0 else open_loop o fuel 0) in
  let* (x, t) := read_loop o fuel 0 x 0 xlen in
  Ok (x, true, t).
