(** How many times a call runs the hash function.

    The functions of ModelHash, ModelWots, ModelCommons, ModelCore and ModelXmss again, as in
    ModelCost, but counting the calls of core_hash (hash.c:25-57), the only place from which
    SHA-2 or SHAKE is reached.  Nothing else is changed; ProofWork shows that forgetting the
    counter gives back the functions of the model.  Every call counts one, whatever the length
    of its input: all inputs have a length fixed by the parameters but that of hash_message,
    which contains the message.  Covered: the reference core and verification; the fast core
    is in ModelWorkFast. *)
From Verif Require Import Base ModelUtils ModelParams ModelHash ModelWots ModelCommons ModelCore ModelXmss ModelCost.

Notation hashes := count.

Section WithEnv.
Context {E : Env}.

(** hash.c:25-57 core_hash, counted: one call *)
Definition core_hash_w (p : xmss_params) (inp : bytes) : cost bytes := mkCost (core_hash p inp) 1.

(** hash.c:62-73 prf, counted *)
Definition prf_w (p : xmss_params) (inp key : bytes) : cost bytes :=
  let+ k := rd key 0 (p_n p) in
  let+ i := rd inp 0 32 in
  core_hash_w p (ull_to_bytes (padding_len p) XMSS_HASH_PADDING_PRF ++ k ++ i).


(** hash.c:79-90 prf_keygen, counted *)
Definition prf_keygen_w (p : xmss_params) (inp key : bytes) : cost bytes :=
  let+ k := rd key 0 (p_n p) in
  let+ i := rd inp 0 (p_n p + 32) in
  core_hash_w p (ull_to_bytes (padding_len p) XMSS_HASH_PADDING_PRF_KEYGEN ++ k ++ i).


(** hash.c:99-112 hash_message, counted *)
Definition hash_message_w (p : xmss_params) (R : bytes -> res bytes) (root : bytes) (idx : N)
    (buf : bytes) (off : nat) (mlen : nat) : cost (bytes * bytes) :=
  let+ buf := wr buf off (ull_to_bytes (padding_len p) XMSS_HASH_PADDING_HASH) in
  let+ r := R buf in
  let+ buf := wr buf (off + padding_len p) r in
  let+ rt := rd root 0 (p_n p) in
  let+ buf := wr buf (off + padding_len p + p_n p) rt in
  let+ buf := wr buf (off + padding_len p + 2 * p_n p) (ull_to_bytes (p_n p) idx) in
  let+ inp := rd buf off (mlen + padding_len p + 3 * p_n p) in
  let+ o := core_hash_w p inp in
  Ok (o, buf).


(** hash.c:117-147 thash_h, counted *)
Definition thash_h_w (p : xmss_params) (inp pub_seed : bytes) (a : addr) : cost (bytes * addr) :=
  let a := set_key_and_mask a 0 in
  let+ key := prf_w p (addr_to_bytes a) pub_seed in
  let a := set_key_and_mask a 1 in
  let+ m0 := prf_w p (addr_to_bytes a) pub_seed in
  let a := set_key_and_mask a 2 in
  let+ m1 := prf_w p (addr_to_bytes a) pub_seed in
  let+ i := rd inp 0 (2 * p_n p) in
  let+ o := core_hash_w p (ull_to_bytes (padding_len p) XMSS_HASH_PADDING_H ++ key
                          ++ xor_bytes i (m0 ++ m1)) in
  Ok (o, a).


(** hash.c:149-175 thash_f, counted *)
Definition thash_f_w (p : xmss_params) (inp pub_seed : bytes) (a : addr) : cost (bytes * addr) :=
  let a := set_key_and_mask a 0 in
  let+ key := prf_w p (addr_to_bytes a) pub_seed in
  let a := set_key_and_mask a 1 in
  let+ m0 := prf_w p (addr_to_bytes a) pub_seed in
  let+ i := rd inp 0 (p_n p) in
  let+ o := core_hash_w p (ull_to_bytes (padding_len p) XMSS_HASH_PADDING_F ++ key
                          ++ xor_bytes i m0) in
  Ok (o, a).


(** wots.c:14-29 expand_seed, counted *)
Definition expand_seed_w (p : xmss_params) (inseed pub_seed : bytes) (a : addr) : cost (bytes * addr) :=
  let a := set_hash_addr a 0 in
  let a := set_key_and_mask a 0 in
  let+ ps := rd pub_seed 0 (p_n p) in
  cforN (wots_len p) 0 (fun i '(out, a) =>
    let a := set_chain_addr a (N.of_nat i) in
    let+ o := prf_keygen_w p (ps ++ addr_to_bytes a) inseed in
    Ok (out ++ o, a)) ([], a).


(** wots.c:38-53 gen_chain_loop, counted *)
Fixpoint gen_chain_loop_w (p : xmss_params) (steps i : nat) (out pub_seed : bytes) (a : addr)
  : cost (bytes * addr) :=
  match steps with
  | O => Ok (out, a)
  | S k =>
      if i <? wots_w p then
        let a := set_hash_addr a (N.of_nat i) in
        let+ (out, a) := thash_f_w p out pub_seed a in
        gen_chain_loop_w p k (S i) out pub_seed a
      else Ok (out, a)
  end.


(** wots.c:38-53 gen_chain, counted *)
Definition gen_chain_w (p : xmss_params) (inp : bytes) (start steps : nat) (pub_seed : bytes) (a : addr)
  : cost (bytes * addr) :=
  let+ out := rd inp 0 (p_n p) in
  gen_chain_loop_w p steps start out pub_seed a.


(** wots.c:117-131 wots_pkgen, counted *)
Definition wots_pkgen_w (p : xmss_params) (seed pub_seed : bytes) (a : addr) : cost (bytes * addr) :=
  let+ (pk, a) := expand_seed_w p seed pub_seed a in
  cforN (wots_len p) 0 (fun i '(pk, a) =>
    let a := set_chain_addr a (N.of_nat i) in
    let+ x := rd pk (i * p_n p) (p_n p) in
    let+ (y, a) := gen_chain_w p x 0 (wots_w p - 1) pub_seed a in
    let+ pk := wr pk (i * p_n p) y in
    Ok (pk, a)) (pk, a).


(** wots.c:137-155 wots_sign, counted *)
Definition wots_sign_w (p : xmss_params) (msg seed pub_seed : bytes) (a : addr) : cost (bytes * addr) :=
  let+ lengths := chain_lengths p msg in
  let+ (sig, a) := expand_seed_w p seed pub_seed a in
  cforN (wots_len p) 0 (fun i '(sig, a) =>
    let a := set_chain_addr a (N.of_nat i) in
    let+ li := rdc lengths i in
    let+ x := rd sig (i * p_n p) (p_n p) in
    let+ (y, a) := gen_chain_w p x 0 li pub_seed a in
    let+ sig := wr sig (i * p_n p) y in
    Ok (sig, a)) (sig, a).


(** wots.c:162-176 wots_pk_from_sig, counted *)
Definition wots_pk_from_sig_w (p : xmss_params) (sig msg pub_seed : bytes) (a : addr)
  : cost (bytes * addr) :=
  let+ lengths := chain_lengths p msg in
  cforN (wots_len p) 0 (fun i '(pk, a) =>
    let a := set_chain_addr a (N.of_nat i) in
    let+ li := rdc lengths i in
    let+ x := rd sig (i * p_n p) (p_n p) in
    let+ (y, a) := gen_chain_w p x li (wots_w p - 1 - li) pub_seed a in
    Ok (pk ++ y, a)) ([], a).


(** xmss_commons.c:16-49 l_tree_loop, counted *)
Fixpoint l_tree_loop_w (p : xmss_params) (fuel l height : nat) (wots_pk pub_seed : bytes) (a : addr)
  : cost (bytes * addr) :=
  if l <=? 1 then Ok (wots_pk, a) else
  match fuel with
  | O => NoFuel
  | S f =>
      let parent_nodes := l / 2 in
      let+ (wots_pk, a) :=
        cforN parent_nodes 0 (fun i '(wots_pk, a) =>
          let a := set_tree_index a (N.of_nat i) in
          let+ inp := rd wots_pk ((i * 2) * p_n p) (2 * p_n p) in
          let+ (o, a) := thash_h_w p inp pub_seed a in
          let+ wots_pk := wr wots_pk (i * p_n p) o in
          Ok (wots_pk, a)) (wots_pk, a) in
      let+ (wots_pk, l) :=
        (if Nat.odd l then
           let+ x := rd wots_pk ((l - 1) * p_n p) (p_n p) in
           let+ wots_pk := wr wots_pk ((l / 2) * p_n p) x in
           Ok (wots_pk, l / 2 + 1)
         else Ok (wots_pk, l / 2)) in
      let height := S height in
      let a := set_tree_height a (N.of_nat height) in
      l_tree_loop_w p f l height wots_pk pub_seed a
  end.


(** xmss_commons.c:16-49 l_tree, counted *)
Definition l_tree_w (p : xmss_params) (wots_pk pub_seed : bytes) (a : addr) : cost (bytes * addr) :=
  let l := wots_len p in
  let a := set_tree_height a 0 in
  let+ (wots_pk, a) := l_tree_loop_w p l l 0 wots_pk pub_seed a in
  let+ leaf := rd wots_pk 0 (p_n p) in
  Ok (leaf, a).


(** xmss_commons.c:54-96 compute_root, counted *)
Definition compute_root_w (p : xmss_params) (leaf : bytes) (leafidx : N) (abuf : bytes) (aoff : nat)
    (pub_seed : bytes) (a : addr) : cost (bytes * addr) :=
  let n := p_n p in
  let+ lf := rd leaf 0 n in
  let+ au := rd abuf aoff n in
  let buffer := if N.odd leafidx then au ++ lf else lf ++ au in
  if tree_height p =? 0 then UB else
  let+ (buffer, leafidx, aoff, a) :=
    cforN (tree_height p - 1) 0 (fun i '(buffer, leafidx, aoff, a) =>
      let a := set_tree_height a (N.of_nat i) in
      let leafidx := N.shiftr leafidx 1 in
      let a := set_tree_index a leafidx in
      let+ (o, a) := thash_h_w p buffer pub_seed a in
      let+ au := rd abuf aoff n in
      let+ buffer :=
        (if N.odd leafidx then
           let+ buffer := wr buffer n o in wr buffer 0 au
         else
           let+ buffer := wr buffer 0 o in wr buffer n au) in
      Ok (buffer, leafidx, aoff + n, a)) (buffer, leafidx, aoff + n, a) in
  let a := set_tree_height a (N.of_nat (tree_height p - 1)) in
  let leafidx := N.shiftr leafidx 1 in
  let a := set_tree_index a leafidx in
  thash_h_w p buffer pub_seed a.


(** xmss_commons.c:104-113 gen_leaf_wots, counted *)
Definition gen_leaf_wots_w (p : xmss_params) (sk_seed pub_seed : bytes) (ltree_addr ots_addr : addr)
  : cost (bytes * addr * addr) :=
  let+ (pk, ots_addr) := wots_pkgen_w p sk_seed pub_seed ots_addr in
  let+ (leaf, ltree_addr) := l_tree_w p pk pub_seed ltree_addr in
  Ok (leaf, ltree_addr, ots_addr).


(** xmss_commons.c:136-215 xmssmt_core_sign_open, counted *)
Definition xmssmt_core_sign_open_w (p : xmss_params) (m sm pk : bytes) : cost open_out :=
  let n := p_n p in
  let+ pub_root := rd pk 0 n in
  let+ pub_seed := rd pk n n in
  let ots_addr := set_type addr_zero XMSS_ADDR_TYPE_OTS in
  let ltree_addr := set_type addr_zero XMSS_ADDR_TYPE_LTREE in
  let node_addr := set_type addr_zero XMSS_ADDR_TYPE_HASHTREE in
  let+ ib := rd sm 0 (index_bytes p) in
  let+ idx := bytes_to_ull ib in
  if length sm <? sig_bytes p then UB else
  let mlen := length sm - sig_bytes p in
  let+ msg := rd sm (sig_bytes p) mlen in
  let+ m := wr m (sig_bytes p) msg in
  if sig_bytes p <? padding_len p + 3 * n then UB else
  let+ (mhash, m) := hash_message_w p (fun _ => rd sm (index_bytes p) n) pk idx m
                       (sig_bytes p - padding_len p - 3 * n) mlen in
  let+ two_h := shl1_int (tree_height p) in
  let+ (root, idx, off, _, _, _) :=
    cforN (p_d p) 0 (fun i '(root, idx, off, ots_addr, ltree_addr, node_addr) =>
      let idx_leaf := N.land idx (two_h - 1) in
      let idx := N.shiftr idx (N.of_nat (tree_height p)) in
      let ots_addr := set_layer_addr ots_addr (N.of_nat i) in
      let ltree_addr := set_layer_addr ltree_addr (N.of_nat i) in
      let node_addr := set_layer_addr node_addr (N.of_nat i) in
      let ltree_addr := set_tree_addr ltree_addr idx in
      let ots_addr := set_tree_addr ots_addr idx in
      let node_addr := set_tree_addr node_addr idx in
      let ots_addr := set_ots_addr ots_addr idx_leaf in
      let+ sig := rd sm off (wots_sig_bytes p) in
      let+ (wots_pk, ots_addr) := wots_pk_from_sig_w p sig root pub_seed ots_addr in
      let off := off + wots_sig_bytes p in
      let ltree_addr := set_ltree_addr ltree_addr idx_leaf in
      let+ (leaf, ltree_addr) := l_tree_w p wots_pk pub_seed ltree_addr in
      let+ (root, node_addr) := compute_root_w p leaf idx_leaf sm off pub_seed node_addr in
      let off := off + tree_height p * n in
      Ok (root, idx, off, ots_addr, ltree_addr, node_addr))
      (mhash, idx, index_bytes p + n, ots_addr, ltree_addr, node_addr) in
  if list_eq_dec N.eq_dec root pub_root then
    let+ msg := rd sm off mlen in
    let+ m := wr m 0 msg in
    Ok (mkOpen 0 m mlen)
  else
    let+ m := wr m 0 (repeat 0%N mlen) in
    Ok (mkOpen (-1) m 0).


(** xmss_core.c:60-83 treehash_while, counted *)
Fixpoint treehash_while_w (p : xmss_params) (fuel : nat) (idx leaf_idx : N) (pub_seed : bytes)
    (stack : bytes) (heights : list nat) (offset : nat) (abuf : bytes) (aoff : nat) (node_addr : addr)
  : cost (bytes * list nat * nat * bytes * addr) :=
  let n := p_n p in
  if offset <? 2 then Ok (stack, heights, offset, abuf, node_addr) else
  let+ h1 := rdc heights (offset - 1) in
  let+ h2 := rdc heights (offset - 2) in
  if negb (h1 =? h2) then Ok (stack, heights, offset, abuf, node_addr) else
  match fuel with
  | O => NoFuel
  | S f =>
      let tree_idx := N.shiftr idx (N.of_nat (h1 + 1)) in
      let node_addr := set_tree_height node_addr (N.of_nat h1) in
      let node_addr := set_tree_index node_addr tree_idx in
      let+ inp := rd stack ((offset - 2) * n) (2 * n) in
      let+ (o, node_addr) := thash_h_w p inp pub_seed node_addr in
      let+ stack := wr stack ((offset - 2) * n) o in
      let offset := offset - 1 in
      let+ hh := rdc heights (offset - 1) in
      let+ heights := wrc heights (offset - 1) (hh + 1) in
      let+ abuf :=
        (if (N.lxor (N.shiftr leaf_idx (N.of_nat (hh + 1))) 1 =? tree_idx)%N then
           let+ x := rd stack ((offset - 1) * n) n in
           wr abuf (aoff + (hh + 1) * n) x
         else Ok abuf) in
      treehash_while_w p f idx leaf_idx pub_seed stack heights offset abuf aoff node_addr
  end.


(** xmss_core.c:19-86 treehash, counted *)
Definition treehash_w (p : xmss_params) (abuf : bytes) (aoff : nat) (sk_seed pub_seed : bytes)
    (leaf_idx : N) (subtree_addr : addr) : cost (bytes * bytes) :=
  let n := p_n p in
  let stack := uninit ((tree_height p + 1) * n) in
  let heights := uninit_nat (tree_height p + 1) in
  let ots_addr := set_type (copy_subtree_addr addr_zero subtree_addr) XMSS_ADDR_TYPE_OTS in
  let ltree_addr := set_type (copy_subtree_addr addr_zero subtree_addr) XMSS_ADDR_TYPE_LTREE in
  let node_addr := set_type (copy_subtree_addr addr_zero subtree_addr) XMSS_ADDR_TYPE_HASHTREE in
  let+ two_h := shl1_int (tree_height p) in
  let+ (stack, _, _, abuf, _, _, _) :=
    cforN (N.to_nat two_h) 0 (fun i '(stack, heights, offset, abuf, ots_addr, ltree_addr, node_addr) =>
      let idx := N.of_nat i in
      let ltree_addr := set_ltree_addr ltree_addr idx in
      let ots_addr := set_ots_addr ots_addr idx in
      let+ (leaf, ltree_addr, ots_addr) := gen_leaf_wots_w p sk_seed pub_seed ltree_addr ots_addr in
      let+ stack := wr stack (offset * n) leaf in
      let offset := offset + 1 in
      let+ heights := wrc heights (offset - 1) 0 in
      let+ abuf :=
        (if (N.lxor leaf_idx 1 =? idx)%N then
           let+ x := rd stack ((offset - 1) * n) n in
           wr abuf aoff x
         else Ok abuf) in
      let+ (stack, heights, offset, abuf, node_addr) :=
        treehash_while_w p offset idx leaf_idx pub_seed stack heights offset abuf aoff node_addr in
      Ok (stack, heights, offset, abuf, ots_addr, ltree_addr, node_addr))
      (stack, heights, 0, abuf, ots_addr, ltree_addr, node_addr) in
  let+ root := rd stack 0 n in
  Ok (root, abuf).


(** xmss_core.c:134-161 xmssmt_core_seed_keypair, counted *)
Definition xmssmt_core_seed_keypair_w (p : xmss_params) (pk sk seed : bytes) : cost (Z * bytes * bytes) :=
  let n := p_n p in
  let ib := index_bytes p in
  let auth_path := uninit (tree_height p * n) in
  let top_tree_addr := set_layer_addr addr_zero (u32 (f_d p + (2 ^ 32 - 1))) in   (* d - 1, unsigned *)
  let+ sk := wr sk 0 (repeat 0%N ib) in
  let+ s2 := rd seed 0 (2 * n) in
  let+ sk := wr sk ib s2 in
  let+ ps := rd seed (2 * n) n in
  let+ sk := wr sk (ib + 3 * n) ps in
  let+ ps := rd sk (ib + 3 * n) n in
  let+ pk := wr pk n ps in
  let+ sk_seed := rd sk ib n in
  let+ pub_seed := rd pk n n in
  let+ (root, _) := treehash_w p auth_path 0 sk_seed pub_seed 0 top_tree_addr in
  let+ pk := wr pk 0 root in
  let+ rt := rd pk 0 n in
  let+ sk := wr sk (ib + 2 * n) rt in
  Ok (0%Z, pk, sk).


(** xmss_core.c:168-177 ref_xmssmt_core_keypair, counted *)
Definition ref_xmssmt_core_keypair_w (p : xmss_params) (pk sk : bytes) (r : nat -> N) : cost (Z * bytes * bytes) :=
  let seed := rand_take r 0 (3 * p_n p) in
  let+ (_, pk, sk) := xmssmt_core_seed_keypair_w p pk sk seed in
  Ok (0%Z, pk, sk).


(** xmss_core.c:234-272 ref_sign_body, counted *)
Definition ref_sign_body_w (p : xmss_params) (idx : N) (sk sm : bytes) (smlen mlen : nat) : cost sign_out :=
  let n := p_n p in
  let ib := index_bytes p in
  let ots_addr := set_type addr_zero XMSS_ADDR_TYPE_OTS in
  let+ x := rd sk 0 ib in
  let+ sm := wr sm 0 x in
  let+ sk := wr sk 0 (ull_to_bytes ib (u64 (idx + 1))) in
  let+ sk_seed := rd sk ib n in
  let+ sk_prf := rd sk (ib + n) n in
  let+ pub_root := rd sk (ib + 2 * n) n in
  let+ pub_seed := rd sk (ib + 3 * n) n in
  let+ R := prf_w p (ull_to_bytes 32 idx) sk_prf in
  let+ sm := wr sm ib R in
  if sig_bytes p <? padding_len p + 3 * n then UB else
  let+ (mhash, sm) := hash_message_w p (fun b => rd b ib n) pub_root idx sm
                        (sig_bytes p - padding_len p - 3 * n) mlen in
  let ots_addr := set_type ots_addr XMSS_ADDR_TYPE_OTS in
  let+ two_h := shl1_int (tree_height p) in
  let+ (_, sm, _, _, _) :=
    cforN (p_d p) 0 (fun i '(idx, sm, off, root, ots_addr) =>
      let idx_leaf := N.land idx (two_h - 1) in
      let idx := N.shiftr idx (N.of_nat (tree_height p)) in
      let ots_addr := set_layer_addr ots_addr (N.of_nat i) in
      let ots_addr := set_tree_addr ots_addr idx in
      let ots_addr := set_ots_addr ots_addr idx_leaf in
      let+ (sig, ots_addr) := wots_sign_w p root sk_seed pub_seed ots_addr in
      let+ sm := wr sm off sig in
      let off := off + wots_sig_bytes p in
      let+ (root, sm) := treehash_w p sm off sk_seed pub_seed idx_leaf ots_addr in
      let off := off + tree_height p * n in
      Ok (idx, sm, off, root, ots_addr))
      (idx, sm, ib + n, mhash, ots_addr) in
  Ok (mkSign 0 sk sm smlen).


(** xmss_core.c:183-273 ref_xmssmt_core_sign, counted *)
Definition ref_xmssmt_core_sign_w (p : xmss_params) (sk sm : bytes) (smlen : nat) (m : bytes) : cost sign_out :=
  let ib := index_bytes p in
  let+ sm := wr sm (sig_bytes p) m in
  let smlen := sig_bytes p + length m in
  let+ x := rd sk 0 ib in
  let+ idx := bytes_to_ull x in
  let+ lim := shl1_ull (full_height p) in
  let last := (lim - 1)%N in
  if (last <=? idx)%N then
    let+ sk := wr sk 0 (repeat 255%N ib) in
    let+ sk := wr sk ib (repeat 0%N (sk_bytes p - ib)) in
    if (last <? idx)%N then Ok (mkSign (-2) sk sm smlen)
    else if (full_height p =? 64) && (idx =? last)%N then Ok (mkSign (-2) sk sm smlen)
    else ref_sign_body_w p idx sk sm smlen (length m)
  else ref_sign_body_w p idx sk sm smlen (length m).


(** xmss.c:45-60 and 92-107 open_wrapper, counted *)
Definition open_wrapper_w (parse : (xmss_params -> N) -> xmss_params -> N -> res (option xmss_params))
    (skb : xmss_params -> N) (m : bytes) (mlen : nat) (sm pk : bytes) : cost open_out :=
  let+ oid := oid_of_bytes pk in
  let+ op := parse skb uninit_params oid in
  match op with
  | None => Ok (mkOpen (-1) m mlen)
  | Some p => xmssmt_core_sign_open_w p m sm (skipn XMSS_OID_LEN pk)
  end.


(** The API calls (xmss.c) with the reference core, counted; [mt] chooses between xmss_* and
    xmssmt_*.  Verification is the same code with both cores but for the size of secret keys
    that the parameter structure holds. *)
Definition ref_keypair_work (mt : bool) :=
  keypair_wrapper_c (if mt then xmssmt_parse_oid else xmss_parse_oid) (c_sk_bytes ref_core) ref_xmssmt_core_keypair_w.
Definition ref_sign_work (mt : bool) :=
  sign_wrapper_c (if mt then xmssmt_parse_oid else xmss_parse_oid) (c_sk_bytes ref_core) ref_xmssmt_core_sign_w.
Definition open_work (mt : bool) (c : core) :=
  open_wrapper_w (if mt then xmssmt_parse_oid else xmss_parse_oid) (c_sk_bytes c).

End WithEnv.
