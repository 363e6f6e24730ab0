(** Model of utils.c and hash_address.c *)
From Verif Require Import Base.
Local Open Scope N_scope.

(** utils.c:6-16 ull_to_bytes.  [for (i = outlen-1; i >= 0; i--) { out[i] = in & 0xff; in >>= 8; }]
    Returns the [outlen] bytes written, the caller places them. *)
Fixpoint ull_to_bytes (outlen : nat) (x : N) : bytes :=
  match outlen with
  | O => []
  | S k => ull_to_bytes k (N.shiftr x 8) ++ [N.land x 255]
  end.

(** utils.c:21-30 bytes_to_ull.  [retval |= ((unsigned long long)in[i]) << (8*(inlen-1-i))];
    a shift of 64 or more is undefined behaviour. *)
Fixpoint bytes_to_ull_loop (b : bytes) (retval : N) : res N :=
  match b with
  | [] => Ok retval
  | x :: t =>
      if (8 * length t <? 64)%nat
      then bytes_to_ull_loop t (N.lor retval (u64 (N.shiftl x (N.of_nat (8 * length t)))))
      else UB
  end.
Definition bytes_to_ull (b : bytes) : res N := bytes_to_ull_loop b 0.

(** hash_address.c: [uint32_t addr[8]] as a record of its eight words. *)
Record addr := mkAddr {
  a0 : N; a1 : N; a2 : N; a3 : N; a4 : N; a5 : N; a6 : N; a7 : N }.

(** [uint32_t addr[8] = {0}] *)
Definition addr_zero : addr := mkAddr 0 0 0 0 0 0 0 0.

(** hash_address.h:6-8 *)
Definition XMSS_ADDR_TYPE_OTS : N := 0.
Definition XMSS_ADDR_TYPE_LTREE : N := 1.
Definition XMSS_ADDR_TYPE_HASHTREE : N := 2.

(** hash_address.c:3-6 *)
Definition set_layer_addr (a : addr) (layer : N) : addr :=
  mkAddr (u32 layer) (a1 a) (a2 a) (a3 a) (a4 a) (a5 a) (a6 a) (a7 a).
(** hash_address.c:8-12 *)
Definition set_tree_addr (a : addr) (tree : N) : addr :=
  mkAddr (a0 a) (u32 (N.shiftr (u64 tree) 32)) (u32 tree) (a3 a) (a4 a) (a5 a) (a6 a) (a7 a).
(** hash_address.c:14-17 *)
Definition set_type (a : addr) (type : N) : addr :=
  mkAddr (a0 a) (a1 a) (a2 a) (u32 type) (a4 a) (a5 a) (a6 a) (a7 a).
(** hash_address.c:19-22 *)
Definition set_key_and_mask (a : addr) (k : N) : addr :=
  mkAddr (a0 a) (a1 a) (a2 a) (a3 a) (a4 a) (a5 a) (a6 a) (u32 k).
(** hash_address.c:24-29: copies words 0..2 of [src] into [dst]. *)
Definition copy_subtree_addr (dst src : addr) : addr :=
  mkAddr (a0 src) (a1 src) (a2 src) (a3 dst) (a4 dst) (a5 dst) (a6 dst) (a7 dst).
(** hash_address.c:33-36 *)
Definition set_ots_addr (a : addr) (ots : N) : addr :=
  mkAddr (a0 a) (a1 a) (a2 a) (a3 a) (u32 ots) (a5 a) (a6 a) (a7 a).
(** hash_address.c:38-41 *)
Definition set_chain_addr (a : addr) (chain : N) : addr :=
  mkAddr (a0 a) (a1 a) (a2 a) (a3 a) (a4 a) (u32 chain) (a6 a) (a7 a).
(** hash_address.c:43-46 *)
Definition set_hash_addr (a : addr) (hash : N) : addr :=
  mkAddr (a0 a) (a1 a) (a2 a) (a3 a) (a4 a) (a5 a) (u32 hash) (a7 a).
(** hash_address.c:50-53 *)
Definition set_ltree_addr (a : addr) (ltree : N) : addr :=
  mkAddr (a0 a) (a1 a) (a2 a) (a3 a) (u32 ltree) (a5 a) (a6 a) (a7 a).
(** hash_address.c:57-60 *)
Definition set_tree_height (a : addr) (h : N) : addr :=
  mkAddr (a0 a) (a1 a) (a2 a) (a3 a) (a4 a) (u32 h) (a6 a) (a7 a).
(** hash_address.c:62-65 *)
Definition set_tree_index (a : addr) (i : N) : addr :=
  mkAddr (a0 a) (a1 a) (a2 a) (a3 a) (a4 a) (a5 a) (u32 i) (a7 a).
