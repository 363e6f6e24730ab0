(** Model of xmss_commons.c *)
From Verif Require Import Base ModelUtils ModelParams ModelHash ModelWots.

Section WithEnv.
Context {E : Env}.

(** xmss_commons.c:16-49 l_tree, in place on the array wots_pk; [while (l > 1)] on fuel. *)
Fixpoint l_tree_loop (p : xmss_params) (fuel l height : nat) (wots_pk pub_seed : bytes) (a : addr)
  : res (bytes * addr) :=
  if l <=? 1 then Ok (wots_pk, a) else
  match fuel with
  | O => NoFuel
  | S f =>
      let parent_nodes := l / 2 in
      let* (wots_pk, a) :=
        forN parent_nodes 0 (fun i '(wots_pk, a) =>
          let a := set_tree_index a (N.of_nat i) in
          let* inp := rd wots_pk ((i * 2) * p_n p) (2 * p_n p) in
          let* (o, a) := thash_h p inp pub_seed a in
          let* wots_pk := wr wots_pk (i * p_n p) o in
          Ok (wots_pk, a)) (wots_pk, a) in
      let* (wots_pk, l) :=
        (if Nat.odd l then
           let* x := rd wots_pk ((l - 1) * p_n p) (p_n p) in
           let* wots_pk := wr wots_pk ((l / 2) * p_n p) x in
           Ok (wots_pk, l / 2 + 1)
         else Ok (wots_pk, l / 2)) in
      let height := S height in
      let a := set_tree_height a (N.of_nat height) in
      l_tree_loop p f l height wots_pk pub_seed a
  end.
Definition l_tree (p : xmss_params) (wots_pk pub_seed : bytes) (a : addr) : res (bytes * addr) :=
  let l := wots_len p in
  let a := set_tree_height a 0 in
  let* (wots_pk, a) := l_tree_loop p l l 0 wots_pk pub_seed a in
  let* leaf := rd wots_pk 0 (p_n p) in
  Ok (leaf, a).

(** xmss_commons.c:54-96 compute_root.  [auth_path] is the buffer [abuf] at offset [aoff].
    tree_height = 0 would make [tree_height - 1] wrap to 2^32 - 1 and the loop run off
    auth_path: UB. *)
Definition compute_root (p : xmss_params) (leaf : bytes) (leafidx : N) (abuf : bytes) (aoff : nat)
    (pub_seed : bytes) (a : addr) : res (bytes * addr) :=
  let n := p_n p in
  let* lf := rd leaf 0 n in
  let* au := rd abuf aoff n in
  let buffer := if N.odd leafidx then au ++ lf else lf ++ au in
  if tree_height p =? 0 then UB else
  let* (buffer, leafidx, aoff, a) :=
    forN (tree_height p - 1) 0 (fun i '(buffer, leafidx, aoff, a) =>
      let a := set_tree_height a (N.of_nat i) in
      let leafidx := N.shiftr leafidx 1 in
      let a := set_tree_index a leafidx in
      let* (o, a) := thash_h p buffer pub_seed a in
      let* au := rd abuf aoff n in
      let* buffer :=
        (if N.odd leafidx then
           let* buffer := wr buffer n o in wr buffer 0 au
         else
           let* buffer := wr buffer 0 o in wr buffer n au) in
      Ok (buffer, leafidx, aoff + n, a)) (buffer, leafidx, aoff + n, a) in
  let a := set_tree_height a (N.of_nat (tree_height p - 1)) in
  let leafidx := N.shiftr leafidx 1 in
  let a := set_tree_index a leafidx in
  thash_h p buffer pub_seed a.

(** xmss_commons.c:104-113 gen_leaf_wots: leaf and both addresses afterwards. *)
Definition gen_leaf_wots (p : xmss_params) (sk_seed pub_seed : bytes) (ltree_addr ots_addr : addr)
  : res (bytes * addr * addr) :=
  let* (pk, ots_addr) := wots_pkgen p sk_seed pub_seed ots_addr in
  let* (leaf, ltree_addr) := l_tree p pk pub_seed ltree_addr in
  Ok (leaf, ltree_addr, ots_addr).

(** What sign_open leaves behind: return code, output buffer, *mlen. *)
Record open_out := mkOpen { oo_rc : Z; oo_m : bytes; oo_mlen : nat }.

(** xmss_commons.c:136-215 xmssmt_core_sign_open.  [m] is the caller's output buffer,
    [sm] the signed message (smlen = its length).
    *mlen = smlen - sig_bytes wraps around to almost 2^64 when smlen < sig_bytes, and the
    memcpy of that many bytes is out of bounds: UB. *)
Definition xmssmt_core_sign_open (p : xmss_params) (m sm pk : bytes) : res open_out :=
  let n := p_n p in
  let* pub_root := rd pk 0 n in
  let* pub_seed := rd pk n n in
  let ots_addr := set_type addr_zero XMSS_ADDR_TYPE_OTS in
  let ltree_addr := set_type addr_zero XMSS_ADDR_TYPE_LTREE in
  let node_addr := set_type addr_zero XMSS_ADDR_TYPE_HASHTREE in
  let* ib := rd sm 0 (index_bytes p) in
  let* idx := bytes_to_ull ib in
  if length sm <? sig_bytes p then UB else
  let mlen := length sm - sig_bytes p in
  let* msg := rd sm (sig_bytes p) mlen in
  let* m := wr m (sig_bytes p) msg in
  if sig_bytes p <? padding_len p + 3 * n then UB else
  let* (mhash, m) := hash_message p (fun _ => rd sm (index_bytes p) n) pk idx m
                       (sig_bytes p - padding_len p - 3 * n) mlen in
  let* two_h := shl1_int (tree_height p) in
  let* (root, idx, off, _, _, _) :=
    forN (p_d p) 0 (fun i '(root, idx, off, ots_addr, ltree_addr, node_addr) =>
      let idx_leaf := N.land idx (two_h - 1) in
      let idx := N.shiftr idx (N.of_nat (tree_height p)) in
      let ots_addr := set_layer_addr ots_addr (N.of_nat i) in
      let ltree_addr := set_layer_addr ltree_addr (N.of_nat i) in
      let node_addr := set_layer_addr node_addr (N.of_nat i) in
      let ltree_addr := set_tree_addr ltree_addr idx in
      let ots_addr := set_tree_addr ots_addr idx in
      let node_addr := set_tree_addr node_addr idx in
      let ots_addr := set_ots_addr ots_addr idx_leaf in
      let* sig := rd sm off (wots_sig_bytes p) in
      let* (wots_pk, ots_addr) := wots_pk_from_sig p sig root pub_seed ots_addr in
      let off := off + wots_sig_bytes p in
      let ltree_addr := set_ltree_addr ltree_addr idx_leaf in
      let* (leaf, ltree_addr) := l_tree p wots_pk pub_seed ltree_addr in
      let* (root, node_addr) := compute_root p leaf idx_leaf sm off pub_seed node_addr in
      let off := off + tree_height p * n in
      Ok (root, idx, off, ots_addr, ltree_addr, node_addr))
      (mhash, idx, index_bytes p + n, ots_addr, ltree_addr, node_addr) in
  if list_eq_dec N.eq_dec root pub_root then
    let* msg := rd sm off mlen in
    let* m := wr m 0 msg in
    Ok (mkOpen 0 m mlen)
  else
    let* m := wr m 0 (repeat 0%N mlen) in
    Ok (mkOpen (-1) m 0).

(** xmss_commons.c:120-130 *)
Definition xmss_core_sign_open := xmssmt_core_sign_open.

End WithEnv.
