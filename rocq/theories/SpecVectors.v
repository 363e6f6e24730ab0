(** Specification of the test vectors: RFC 8391 values on fixed inputs, each printed as ten
    bytes of SHAKE128, and WOTS+ / L-trees on addresses whose first five words are arbitrary. *)
From Coq Require Import Ascii String.
From Verif Require Import Base SpecRfc SpecFips202 SpecParams.

Section Any.
Variable P : sparams.
(** [W] is the 20-byte beginning of the address *)
Definition adr (W : bytes) (x y k : nat) : bytes := W ++ toByte (N.of_nat x) 4 ++ toByte (N.of_nat y) 4 ++ toByte (N.of_nat k) 4.
Section Ots.
Variables (W seed : bytes).
Fixpoint chain_at (X : bytes) (c i s : nat) : bytes :=
  match s with
  | O => X
  | S s => F P (PRF P seed (adr W c (i + s) 0)) (xorb_spec (chain_at X c i s) (PRF P seed (adr W c (i + s) 1)))
  end.
Definition wots_sk_at (sk_seed : bytes) (c : nat) : bytes := PRF_keygen P sk_seed (seed ++ adr W c 0 0).
Definition wots_pk_at (sk_seed : bytes) : list bytes :=
  map (fun c => chain_at (wots_sk_at sk_seed c) c 0 (sp_w P - 1)) (seq 0 (sp_len P)).
Definition wots_sig_at (sk_seed M : bytes) : list bytes :=
  map (fun c => chain_at (wots_sk_at sk_seed c) c 0 (nth c (wots_digits P M) 0)) (seq 0 (sp_len P)).
Definition rand_hash_at (x y : nat) (l r : bytes) : bytes :=
  H P (PRF P seed (adr W x y 0)) (xorb_spec l (PRF P seed (adr W x y 1)) ++ xorb_spec r (PRF P seed (adr W x y 2))).
Fixpoint ltree_level_at (height i : nat) (nodes : list bytes) : list bytes :=
  match nodes with
  | a :: b :: rest => rand_hash_at height i a b :: ltree_level_at height (S i) rest
  | rest => rest
  end.
Fixpoint ltree_at (k height : nat) (nodes : list bytes) : bytes :=
  match k with
  | O => hd [] nodes
  | S k' => if length nodes <=? 1 then hd [] nodes else ltree_at k' (S height) (ltree_level_at height 0 nodes)
  end.
End Ots.
(** L-tree addresses begin with [WL], one-time signature addresses with [WO] *)
Definition leaf_at (WL WO sk_seed seed : bytes) : bytes := ltree_at WL seed (sp_len P) 0 (wots_pk_at WO seed sk_seed).
End Any.

(** lower-case hexadecimal *)
Definition hexd (v : N) : string := String (nth (N.to_nat v) (list_ascii_of_string "0123456789abcdef") " "%char) EmptyString.
Definition hex (b : bytes) : string := String.concat "" (map (fun x => hexd (x / 16) ++ hexd (x mod 16))%string b).
Definition fingerprint (x : bytes) : string := hex (b2h 10 (SHAKE128 (h2b x) 80)).
Definition newline : string := String (ascii_of_nat 10) EmptyString.

(** 0, s, 2s, ... *)
Definition ramp (s k : nat) : bytes := map (fun i => N.of_nat (s * i)) (seq 0 k).

Section Lines.
Context {E : Env}.
(** the public key of the seed 0, 1, 2, ... and its signature on the byte 37 with index 2^(h-1) *)
Definition key_line (r : row) : string :=
  let n := r_n r in let P := row_sp r in
  let sks := firstn n (ramp 1 (3 * n)) in let prfk := firstn n (skipn n (ramp 1 (3 * n))) in let seed := skipn (2 * n) (ramp 1 (3 * n)) in
  let rt := mt_root P sks seed in
  ((if r_mt r then "XMSSMT " else "XMSS ") ++ dec (N.to_nat (r_oid r)) ++ " " ++ fingerprint (rt ++ seed) ++ " " ++
   fingerprint (mt_sign P sks prfk rt seed (2 ^ (N.of_nat (r_h r) - 1)) [37%N]) ++ newline)%string.
(** WOTS+ public key, signature and leaf on the address 0, 5*10^8, 10^9, ...; the one-time
    key under the leaf is the one of the address 0, 4*10^8, 8*10^8, ... *)
Definition wots_line (r : row) : string :=
  let n := r_n r in let P := row_sp r in
  let sks := ramp 1 n in let seed := ramp 2 n in let m := ramp 3 n in
  let W k := flat_map (fun i => toByte (k * i) 4) [0; 1; 2; 3; 4]%N in
  let W1 := W 500000000%N in let W2 := W 400000000%N in
  ("WOTS+ " ++ dec (N.to_nat (r_oid r)) ++ " " ++ fingerprint (List.concat (wots_pk_at P W1 seed sks)) ++ " " ++
   fingerprint (List.concat (wots_sig_at P W1 seed sks m)) ++ " " ++ fingerprint (leaf_at P W1 W2 sks seed) ++ newline)%string.
(** The parameter sets of height 10 with one tree and of height 20 with four layers *)
Definition h10 : list row := filter (fun r => r_h r =? 10) (rows false).
Definition h20_4 : list row := filter (fun r => (r_h r =? 20) && (r_d r =? 4)) (rows true).
Definition vectors : string := String.concat "" (map wots_line h10 ++ map key_line h20_4 ++ map key_line h10).
End Lines.
