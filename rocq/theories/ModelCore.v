(** Model of xmss_core.c (the reference core) *)
From Verif Require Import Base ModelUtils ModelParams ModelHash ModelWots ModelCommons.

Section WithEnv.
Context {E : Env}.

(** xmss_core.c:60-83, the while loop of treehash, on fuel. *)
Fixpoint treehash_while (p : xmss_params) (fuel : nat) (idx leaf_idx : N) (pub_seed : bytes)
    (stack : bytes) (heights : list nat) (offset : nat) (abuf : bytes) (aoff : nat) (node_addr : addr)
  : res (bytes * list nat * nat * bytes * addr) :=
  let n := p_n p in
  if offset <? 2 then Ok (stack, heights, offset, abuf, node_addr) else
  let* h1 := rdc heights (offset - 1) in
  let* h2 := rdc heights (offset - 2) in
  if negb (h1 =? h2) then Ok (stack, heights, offset, abuf, node_addr) else
  match fuel with
  | O => NoFuel
  | S f =>
      let tree_idx := N.shiftr idx (N.of_nat (h1 + 1)) in
      let node_addr := set_tree_height node_addr (N.of_nat h1) in
      let node_addr := set_tree_index node_addr tree_idx in
      let* inp := rd stack ((offset - 2) * n) (2 * n) in
      let* (o, node_addr) := thash_h p inp pub_seed node_addr in
      let* stack := wr stack ((offset - 2) * n) o in
      let offset := offset - 1 in
      let* hh := rdc heights (offset - 1) in
      let* heights := wrc heights (offset - 1) (hh + 1) in
      let* abuf :=
        (if (N.lxor (N.shiftr leaf_idx (N.of_nat (hh + 1))) 1 =? tree_idx)%N then
           let* x := rd stack ((offset - 1) * n) n in
           wr abuf (aoff + (hh + 1) * n) x
         else Ok abuf) in
      treehash_while p f idx leaf_idx pub_seed stack heights offset abuf aoff node_addr
  end.

(** xmss_core.c:19-86 treehash: root and the buffer holding auth_path afterwards.
    stack and heights start out uninitialised. *)
Definition treehash (p : xmss_params) (abuf : bytes) (aoff : nat) (sk_seed pub_seed : bytes)
    (leaf_idx : N) (subtree_addr : addr) : res (bytes * bytes) :=
  let n := p_n p in
  let stack := uninit ((tree_height p + 1) * n) in
  let heights := uninit_nat (tree_height p + 1) in
  let ots_addr := set_type (copy_subtree_addr addr_zero subtree_addr) XMSS_ADDR_TYPE_OTS in
  let ltree_addr := set_type (copy_subtree_addr addr_zero subtree_addr) XMSS_ADDR_TYPE_LTREE in
  let node_addr := set_type (copy_subtree_addr addr_zero subtree_addr) XMSS_ADDR_TYPE_HASHTREE in
  let* two_h := shl1_int (tree_height p) in
  let* (stack, _, _, abuf, _, _, _) :=
    forN (N.to_nat two_h) 0 (fun i '(stack, heights, offset, abuf, ots_addr, ltree_addr, node_addr) =>
      let idx := N.of_nat i in
      let ltree_addr := set_ltree_addr ltree_addr idx in
      let ots_addr := set_ots_addr ots_addr idx in
      let* (leaf, ltree_addr, ots_addr) := gen_leaf_wots p sk_seed pub_seed ltree_addr ots_addr in
      let* stack := wr stack (offset * n) leaf in
      let offset := offset + 1 in
      let* heights := wrc heights (offset - 1) 0 in
      let* abuf :=
        (if (N.lxor leaf_idx 1 =? idx)%N then
           let* x := rd stack ((offset - 1) * n) n in
           wr abuf aoff x
         else Ok abuf) in
      let* (stack, heights, offset, abuf, node_addr) :=
        treehash_while p offset idx leaf_idx pub_seed stack heights offset abuf aoff node_addr in
      Ok (stack, heights, offset, abuf, ots_addr, ltree_addr, node_addr))
      (stack, heights, 0, abuf, ots_addr, ltree_addr, node_addr) in
  let* root := rd stack 0 n in
  Ok (root, abuf).

(** xmss_core.c:93-96 xmss_xmssmt_core_sk_bytes *)
Definition ref_core_sk_bytes (p : xmss_params) : N :=
  u32 (f_index_bytes p + 4 * f_n p).

(** xmss_core.c:134-161 xmssmt_core_seed_keypair: return code, pk and sk afterwards. *)
Definition xmssmt_core_seed_keypair (p : xmss_params) (pk sk seed : bytes) : res (Z * bytes * bytes) :=
  let n := p_n p in
  let ib := index_bytes p in
  let auth_path := uninit (tree_height p * n) in
  let top_tree_addr := set_layer_addr addr_zero (u32 (f_d p + (2 ^ 32 - 1))) in   (* d - 1, unsigned *)
  let* sk := wr sk 0 (repeat 0%N ib) in
  let* s2 := rd seed 0 (2 * n) in
  let* sk := wr sk ib s2 in
  let* ps := rd seed (2 * n) n in
  let* sk := wr sk (ib + 3 * n) ps in
  let* ps := rd sk (ib + 3 * n) n in
  let* pk := wr pk n ps in
  let* sk_seed := rd sk ib n in
  let* pub_seed := rd pk n n in
  let* (root, _) := treehash p auth_path 0 sk_seed pub_seed 0 top_tree_addr in
  let* pk := wr pk 0 root in
  let* rt := rd pk 0 n in
  let* sk := wr sk (ib + 2 * n) rt in
  Ok (0%Z, pk, sk).

(** The random source: consecutive bytes of a stream (see ModelRandom for randombytes). *)
Definition rand_take (r : nat -> N) (pos k : nat) : bytes := map r (seq pos k).

(** xmss_core.c:168-177 xmssmt_core_keypair *)
Definition ref_xmssmt_core_keypair (p : xmss_params) (pk sk : bytes) (r : nat -> N) : res (Z * bytes * bytes) :=
  let seed := rand_take r 0 (3 * p_n p) in
  let* (_, pk, sk) := xmssmt_core_seed_keypair p pk sk seed in
  Ok (0%Z, pk, sk).

(** xmss_core.c:103-110 xmss_core_keypair *)
Definition ref_xmss_core_keypair := ref_xmssmt_core_keypair.

(** What sign leaves behind: return code, secret key, sm buffer, *smlen. *)
Record sign_out := mkSign { so_rc : Z; so_sk : bytes; so_sm : bytes; so_smlen : nat }.

(** xmss_core.c:234-272, the part of xmssmt_core_sign after the exhaustion check. *)
Definition ref_sign_body (p : xmss_params) (idx : N) (sk sm : bytes) (smlen mlen : nat) : res sign_out :=
  let n := p_n p in
  let ib := index_bytes p in
  let ots_addr := set_type addr_zero XMSS_ADDR_TYPE_OTS in
  let* x := rd sk 0 ib in
  let* sm := wr sm 0 x in
  let* sk := wr sk 0 (ull_to_bytes ib (u64 (idx + 1))) in
  let* sk_seed := rd sk ib n in
  let* sk_prf := rd sk (ib + n) n in
  let* pub_root := rd sk (ib + 2 * n) n in
  let* pub_seed := rd sk (ib + 3 * n) n in
  let* R := prf p (ull_to_bytes 32 idx) sk_prf in
  let* sm := wr sm ib R in
  if sig_bytes p <? padding_len p + 3 * n then UB else
  let* (mhash, sm) := hash_message p (fun b => rd b ib n) pub_root idx sm
                        (sig_bytes p - padding_len p - 3 * n) mlen in
  let ots_addr := set_type ots_addr XMSS_ADDR_TYPE_OTS in
  let* two_h := shl1_int (tree_height p) in
  let* (_, sm, _, _, _) :=
    forN (p_d p) 0 (fun i '(idx, sm, off, root, ots_addr) =>
      let idx_leaf := N.land idx (two_h - 1) in
      let idx := N.shiftr idx (N.of_nat (tree_height p)) in
      let ots_addr := set_layer_addr ots_addr (N.of_nat i) in
      let ots_addr := set_tree_addr ots_addr idx in
      let ots_addr := set_ots_addr ots_addr idx_leaf in
      let* (sig, ots_addr) := wots_sign p root sk_seed pub_seed ots_addr in
      let* sm := wr sm off sig in
      let off := off + wots_sig_bytes p in
      let* (root, sm) := treehash p sm off sk_seed pub_seed idx_leaf ots_addr in
      let off := off + tree_height p * n in
      Ok (idx, sm, off, root, ots_addr))
      (idx, sm, ib + n, mhash, ots_addr) in
  Ok (mkSign 0 sk sm smlen).

(** xmss_core.c:183-273 xmssmt_core_sign *)
Definition ref_xmssmt_core_sign (p : xmss_params) (sk sm : bytes) (smlen : nat) (m : bytes) : res sign_out :=
  let ib := index_bytes p in
  let* sm := wr sm (sig_bytes p) m in
  let smlen := sig_bytes p + length m in
  let* x := rd sk 0 ib in
  let* idx := bytes_to_ull x in
  let* lim := shl1_ull (full_height p) in
  let last := (lim - 1)%N in
  if (last <=? idx)%N then
    let* sk := wr sk 0 (repeat 255%N ib) in
    let* sk := wr sk ib (repeat 0%N (sk_bytes p - ib)) in
    if (last <? idx)%N then Ok (mkSign (-2) sk sm smlen)
    else if (full_height p =? 64) && (idx =? last)%N then Ok (mkSign (-2) sk sm smlen)
    else ref_sign_body p idx sk sm smlen (length m)
  else ref_sign_body p idx sk sm smlen (length m).

(** xmss_core.c:116-126 xmss_core_sign *)
Definition ref_xmss_core_sign := ref_xmssmt_core_sign.

End WithEnv.
