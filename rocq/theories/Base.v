(** Base: results with undefined behaviour, byte buffers, loops, machine words.
    Conventions of the C model (LP64, 8-bit char, 32-bit int, signed plain char). *)
From Coq Require Export List NArith Arith Lia Bool ZArith.
From Coq Require Export ZifyBool ZifyNat ZifyN.
Export ListNotations.

(** Outcome of a C computation: a value, undefined behaviour (out-of-bounds
    access, invalid shift, use of an array that was never written), or a loop
    of the model that ran out of its explicit fuel. *)
Inductive res (A : Type) : Type :=
| Ok (a : A)
| UB
| NoFuel.
Arguments Ok {A} a.
Arguments UB {A}.
Arguments NoFuel {A}.

Definition bind {A B} (x : res A) (f : A -> res B) : res B :=
  match x with Ok a => f a | UB => UB | NoFuel => NoFuel end.

Notation "'let*' x := c1 'in' c2" := (@bind _ _ c1 (fun x => c2))
  (at level 200, x pattern, c1 at level 100, c2 at level 200, right associativity,
   format "'[v' 'let*'  x  :=  c1  'in' '/' c2 ']'").

(** Buffers are lists of bytes; a byte is an [N] (below 256 when well formed). *)
Notation bytes := (list N).

Definition bytes_ok (b : bytes) : Prop := Forall (fun x => (x < 256)%N) b.

(** memcpy-style read of [l] bytes at offset [o]: out of bounds is UB. *)
Definition rd (b : bytes) (o l : nat) : res bytes :=
  if o + l <=? length b then Ok (firstn l (skipn o b)) else UB.

(** memcpy/memset-style write of [d] at offset [o]: out of bounds is UB. *)
Definition wr (b : bytes) (o : nat) (d : bytes) : res bytes :=
  if o + length d <=? length b then Ok (firstn o b ++ d ++ skipn (o + length d) b) else UB.

(** Array cell read / write for arrays of other element types. *)
Definition rdc {A} (l : list A) (i : nat) : res A :=
  match nth_error l i with Some x => Ok x | None => UB end.

Fixpoint upd {A} (l : list A) (i : nat) (x : A) : list A :=
  match l, i with
  | [], _ => []
  | _ :: t, O => x :: t
  | y :: t, S j => y :: upd t j x
  end.

Definition wrc {A} (l : list A) (i : nat) (x : A) : res (list A) :=
  if i <? length l then Ok (upd l i x) else UB.

(** [forN k i body s] runs [body] for the [k] loop counters [i, i+1, ...]. *)
Fixpoint forN {S : Type} (k i : nat) (body : nat -> S -> res S) (s : S) : res S :=
  match k with
  | O => Ok s
  | Datatypes.S k' => let* s' := body i s in forN k' (Datatypes.S i) body s'
  end.

(** Machine words. *)
Definition u8 (x : N) : N := N.modulo x (2 ^ 8).
Definition u32 (x : N) : N := N.modulo x (2 ^ 32).
Definition u64 (x : N) : N := N.modulo x (2 ^ 64).

(** [1ULL << k]: undefined for k >= 64. *)
Definition shl1_ull (k : nat) : res N :=
  if k <? 64 then Ok (2 ^ N.of_nat k)%N else UB.
(** [1 << k] on int: undefined when the result does not fit, i.e. k >= 31. *)
Definition shl1_int (k : nat) : res N :=
  if k <? 31 then Ok (2 ^ N.of_nat k)%N else UB.

(** The environment: OpenSSL's SHA256 and SHA512 (external functions) and the
    contents of uninitialised automatic storage. Only data, no assumptions. *)
Class Env := {
  sha256 : bytes -> bytes;
  sha512 : bytes -> bytes;
  junk : nat -> N
}.

(** An uninitialised automatic array of [k] elements. *)
Definition uninit {E : Env} (k : nat) : bytes := map junk (seq 0 k).
Definition uninit_nat {E : Env} (k : nat) : list nat := map (fun i => N.to_nat (junk i)) (seq 0 k).
