(** Specification: FIPS 202 (SHA-3 Standard), SHAKE128 and SHAKE256, on bit strings,
    following the algorithms of the standard.  Independent of the C code. *)
From Verif Require Import Base.

Definition bits := list bool.
(** Bit strings of byte strings (Algorithm 10, h2b): least significant bit of each byte first *)
Definition byte_bits (x : N) : bits := map (fun i => N.testbit x (N.of_nat i)) (seq 0 8).
Definition h2b (b : bytes) : bits := flat_map byte_bits b.
(** and back (Algorithm 11, b2h) *)
Definition bit_val (s : bits) : N := fold_right (fun b acc => N.b2n b + 2 * acc)%N 0%N s.
Fixpoint b2h (k : nat) (s : bits) : bytes :=
  match k with O => [] | S k' => bit_val (firstn 8 s) :: b2h k' (skipn 8 s) end.

(** Section 3.1: state arrays A[x, y, z], w = 64 *)
Definition state := nat -> nat -> nat -> bool.
Definition state_of_string (S : bits) : state := fun x y z => nth (64 * (5 * y + x) + z) S false.
Definition string_of_state (A : state) : bits :=
  map (fun i => A ((i / 64) mod 5) (i / 320) (i mod 64)) (seq 0 1600).

(** Algorithm 1: theta *)
Definition theta (A : state) : state :=
  let C := fun x z => xorb (xorb (xorb (xorb (A x 0 z) (A x 1 z)) (A x 2 z)) (A x 3 z)) (A x 4 z) in
  let D := fun x z => xorb (C ((x + 4) mod 5) z) (C ((x + 1) mod 5) ((z + 63) mod 64)) in
  fun x y z => xorb (A x y z) (D x z).

(** Algorithm 2: rho.  The lane visited at step t is rotated by (t+1)(t+2)/2. *)
Fixpoint rho_offset_from (fuel t cx cy x y : nat) : nat :=
  match fuel with
  | O => 0
  | S f => if (cx =? x) && (cy =? y) then (t + 1) * (t + 2) / 2
           else rho_offset_from f (S t) cy ((2 * cx + 3 * cy) mod 5) x y
  end.
Definition rho_offset (x y : nat) : nat := rho_offset_from 24 0 1 0 x y.   (* 0 for (0,0) *)
Definition rho (A : state) : state :=
  fun x y z => A x y ((z + 64 - rho_offset x y mod 64) mod 64).

(** Algorithm 3: pi *)
Definition pi (A : state) : state := fun x y z => A ((x + 3 * y) mod 5) x z.

(** Algorithm 4: chi *)
Definition chi (A : state) : state :=
  fun x y z => xorb (A x y z) (andb (xorb (A ((x + 1) mod 5) y z) true) (A ((x + 2) mod 5) y z)).

(** Algorithm 5: rc(t) *)
Fixpoint rc_lfsr (k : nat) (R : bits) : bits :=
  match k with
  | O => R
  | S k' =>
      let R := false :: R in
      let r8 := nth 8 R false in
      let flip := fun i => xorb (nth i R false) r8 in
      rc_lfsr k' [flip 0; nth 1 R false; nth 2 R false; nth 3 R false; flip 4; flip 5; flip 6; nth 7 R false]
  end.
Definition rc (t : nat) : bool :=
  nth 0 (rc_lfsr (t mod 255) [true; false; false; false; false; false; false; false]) false.

(** Algorithm 6: iota.  RC[2^j - 1] = rc(j + 7 i_r) for j = 0..6, the other bits are 0. *)
Definition RC (ir z : nat) : bool :=
  existsb (fun j => (z =? 2 ^ j - 1) && rc (j + 7 * ir)) (seq 0 7).
Definition iota (ir : nat) (A : state) : state :=
  fun x y z => if (x =? 0) && (y =? 0) then xorb (A x y z) (RC ir z) else A x y z.

(** Algorithm 7: KECCAK-p[1600, 24] *)
Definition Rnd (A : state) (ir : nat) : state := iota ir (chi (pi (rho (theta A)))).
Definition keccak_p (S : bits) : bits :=
  string_of_state (fold_left Rnd (seq 0 24) (state_of_string S)).

(** Algorithm 9: pad10*1 *)
Definition pad10star1 (x m : nat) : bits :=
  let j := (x - (m + 2) mod x) mod x in
  [true] ++ repeat false j ++ [true].

Definition xor_str (a b : bits) : bits := map (fun q => xorb (fst q) (snd q)) (combine a b).

(** Algorithm 8: SPONGE[f, pad, r](N, d), b = 1600 *)
Fixpoint absorb (f : bits -> bits) (r cnt : nat) (S P : bits) : bits :=
  match cnt with
  | O => S
  | Datatypes.S c => absorb f r c (f (xor_str S (firstn r P ++ repeat false (1600 - r)))) (skipn r P)
  end.
Fixpoint squeeze (f : bits -> bits) (r cnt : nat) (S : bits) : bits :=
  match cnt with
  | O => []
  | Datatypes.S c => firstn r S ++ squeeze f r c (f S)
  end.
Definition sponge (r : nat) (N : bits) (d : nat) : bits :=
  let P := N ++ pad10star1 r (length N) in
  let S := absorb keccak_p r (length P / r) (repeat false 1600) P in
  firstn d (squeeze keccak_p r (d / r + 1) S).

(** Section 6.2: SHAKE128(M, d) = KECCAK[256](M || 1111, d), SHAKE256(M, d) = KECCAK[512](M || 1111, d) *)
Definition KECCAK (c : nat) (N : bits) (d : nat) : bits := sponge (1600 - c) N d.
Definition SHAKE128 (M : bits) (d : nat) : bits := KECCAK 256 (M ++ [true; true; true; true]) d.
Definition SHAKE256 (M : bits) (d : nat) : bits := KECCAK 512 (M ++ [true; true; true; true]) d.
