(** What a program that shares the machine can observe of a call.

    In the usual model of timing and cache side channels an observer sees which way every
    branch goes and the address of every memory access, but not the data.  The functions of
    ModelHash, ModelWots, ModelCommons, ModelCore and ModelXmss again, as in ModelCost, but
    recording the observable events; nothing else is changed, and ProofLeak shows that
    forgetting the trace gives back the functions of the model.

    Recorded: the outcome of every comparison in the C text, one comparison for each turn of a
    loop, offset and length of every read and write of a buffer, and for each call of core_hash
    (hash.c:25-57) the length of its input.  Not recorded: what happens inside SHA-2 (OpenSSL)
    and SHAKE; helpers that always do the same (ull_to_bytes, memset, setting addresses, the
    choice of the hash function by OID, xor of a block); the time of individual instructions
    (all arithmetic in this code is additions, shifts and bitwise operations).
    Parsing the OID is not observed: it is public. *)
From Verif Require Import Base ModelUtils ModelParams ModelHash ModelWots ModelCommons ModelCore ModelXmss.

(** [Chain t]: one chain of a one-time signature, with its own trace *)
Inductive event := Branch (b : bool) | Access (off len : nat) | Hash (len : nat) | Chain (t : list event).

Record leak (A : Type) := mkLeak { outcome : res A; trace : list event }.
Arguments mkLeak {A} outcome trace.
Arguments outcome {A} l.
Arguments trace {A} l.

(** a computation without observable events *)
Definition silent {A} (r : res A) : leak A := mkLeak r [].
Coercion silent : res >-> leak.

Definition lbind {A B} (c : leak A) (f : A -> leak B) : leak B :=
  match outcome c with
  | Ok a => mkLeak (outcome (f a)) (trace c ++ trace (f a))
  | UB => mkLeak UB (trace c)
  | NoFuel => mkLeak NoFuel (trace c)
  end.
Notation "'let!' x := c1 'in' c2" := (@lbind _ _ c1 (fun x => c2))
  (at level 200, x pattern, c1 at level 100, c2 at level 200, right associativity).

(** a branch of the C program *)
Definition lif {A} (b : bool) (c1 c2 : leak A) : leak A :=
  mkLeak (if b then outcome c1 else outcome c2) (Branch b :: if b then trace c1 else trace c2).
Notation "'if!' b 'then' c1 'else' c2" := (lif b c1 c2) (at level 200, b at level 100, right associativity).

(** a loop: every turn starts with a comparison *)
Fixpoint lforN {S : Type} (k i : nat) (body : nat -> S -> leak S) (s : S) : leak S :=
  match k with
  | O => mkLeak (Ok s) [Branch false]
  | Datatypes.S k' => let! s' := mkLeak (outcome (body i s)) (Branch true :: trace (body i s)) in lforN k' (Datatypes.S i) body s'
  end.

(** memory *)
Definition rd_l (b : bytes) (o l : nat) : leak bytes := mkLeak (rd b o l) [Access o l].
Definition wr_l (b : bytes) (o : nat) (d : bytes) : leak bytes := mkLeak (wr b o d) [Access o (length d)].
Definition rdc_l {A} (l : list A) (i : nat) : leak A := mkLeak (rdc l i) [Access i 1].
Definition wrc_l {A} (l : list A) (i : nat) (x : A) : leak (list A) := mkLeak (wrc l i x) [Access i 1].

(** a chain of a one-time signature: its trace is kept together *)
Definition sign_chain {A} (c : leak A) : leak A := mkLeak (outcome c) [Chain (trace c)].

Section WithEnv.
Context {E : Env}.

(** hash.c:25-57 core_hash, observed: the length of the input *)
Definition core_hash_l (p : xmss_params) (inp : bytes) : leak bytes := mkLeak (core_hash p inp) [Hash (length inp)].

(** hash.c:62-73 prf, observed *)
Definition prf_l (p : xmss_params) (inp key : bytes) : leak bytes :=
  let! k := rd_l key 0 (p_n p) in
  let! i := rd_l inp 0 32 in
  core_hash_l p (ull_to_bytes (padding_len p) XMSS_HASH_PADDING_PRF ++ k ++ i).


(** hash.c:79-90 prf_keygen, observed *)
Definition prf_keygen_l (p : xmss_params) (inp key : bytes) : leak bytes :=
  let! k := rd_l key 0 (p_n p) in
  let! i := rd_l inp 0 (p_n p + 32) in
  core_hash_l p (ull_to_bytes (padding_len p) XMSS_HASH_PADDING_PRF_KEYGEN ++ k ++ i).


(** hash.c:99-112 hash_message, observed *)
Definition hash_message_l (p : xmss_params) (R : bytes -> leak bytes) (root : bytes) (idx : N)
    (buf : bytes) (off : nat) (mlen : nat) : leak (bytes * bytes) :=
  let! buf := wr_l buf off (ull_to_bytes (padding_len p) XMSS_HASH_PADDING_HASH) in
  let! r := R buf in
  let! buf := wr_l buf (off + padding_len p) r in
  let! rt := rd_l root 0 (p_n p) in
  let! buf := wr_l buf (off + padding_len p + p_n p) rt in
  let! buf := wr_l buf (off + padding_len p + 2 * p_n p) (ull_to_bytes (p_n p) idx) in
  let! inp := rd_l buf off (mlen + padding_len p + 3 * p_n p) in
  let! o := core_hash_l p inp in
  Ok (o, buf).


(** hash.c:117-147 thash_h, observed *)
Definition thash_h_l (p : xmss_params) (inp pub_seed : bytes) (a : addr) : leak (bytes * addr) :=
  let a := set_key_and_mask a 0 in
  let! key := prf_l p (addr_to_bytes a) pub_seed in
  let a := set_key_and_mask a 1 in
  let! m0 := prf_l p (addr_to_bytes a) pub_seed in
  let a := set_key_and_mask a 2 in
  let! m1 := prf_l p (addr_to_bytes a) pub_seed in
  let! i := rd_l inp 0 (2 * p_n p) in
  let! o := core_hash_l p (ull_to_bytes (padding_len p) XMSS_HASH_PADDING_H ++ key
                          ++ xor_bytes i (m0 ++ m1)) in
  Ok (o, a).


(** hash.c:149-175 thash_f, observed *)
Definition thash_f_l (p : xmss_params) (inp pub_seed : bytes) (a : addr) : leak (bytes * addr) :=
  let a := set_key_and_mask a 0 in
  let! key := prf_l p (addr_to_bytes a) pub_seed in
  let a := set_key_and_mask a 1 in
  let! m0 := prf_l p (addr_to_bytes a) pub_seed in
  let! i := rd_l inp 0 (p_n p) in
  let! o := core_hash_l p (ull_to_bytes (padding_len p) XMSS_HASH_PADDING_F ++ key
                          ++ xor_bytes i m0) in
  Ok (o, a).


(** wots.c:14-29 expand_seed, observed *)
Definition expand_seed_l (p : xmss_params) (inseed pub_seed : bytes) (a : addr) : leak (bytes * addr) :=
  let a := set_hash_addr a 0 in
  let a := set_key_and_mask a 0 in
  let! ps := rd_l pub_seed 0 (p_n p) in
  lforN (wots_len p) 0 (fun i '(out, a) =>
    let a := set_chain_addr a (N.of_nat i) in
    let! o := prf_keygen_l p (ps ++ addr_to_bytes a) inseed in
    Ok (out ++ o, a)) ([], a).


(** wots.c:38-53 gen_chain_loop, observed *)
Fixpoint gen_chain_loop_l (p : xmss_params) (steps i : nat) (out pub_seed : bytes) (a : addr)
  : leak (bytes * addr) :=
  match steps with
  | O => Ok (out, a)
  | S k =>
      if! i <? wots_w p then
        let a := set_hash_addr a (N.of_nat i) in
        let! (out, a) := thash_f_l p out pub_seed a in
        gen_chain_loop_l p k (S i) out pub_seed a
      else Ok (out, a)
  end.


(** wots.c:38-53 gen_chain, observed *)
Definition gen_chain_l (p : xmss_params) (inp : bytes) (start steps : nat) (pub_seed : bytes) (a : addr)
  : leak (bytes * addr) :=
  let! out := rd_l inp 0 (p_n p) in
  gen_chain_loop_l p steps start out pub_seed a.


(** wots.c:60-79 base_w, observed *)
Fixpoint base_w_loop_l (p : xmss_params) (k : nat) (input : bytes) (inx : nat) (total : N) (bits : nat)
  : leak (list nat) :=
  match k with
  | O => Ok []
  | S k' =>
      let! (inx, total, bits) :=
        (if! bits =? 0 then let! b := rdc_l input inx in Ok (S inx, b, 8) else Ok (inx, total, bits)) in
      if! bits <? wots_log_w p then UB else
      let bits := bits - wots_log_w p in
      let dg := N.to_nat (N.land (N.shiftr total (N.of_nat bits)) (N.of_nat (wots_w p - 1))) in
      let! rest := base_w_loop_l p k' input inx total bits in
      Ok (dg :: rest)
  end.
Definition base_w_l (p : xmss_params) (out_len : nat) (input : bytes) : leak (list nat) :=
  base_w_loop_l p out_len input 0 (junk 0) 0.

(** wots.c:82-99 wots_checksum, observed.  The loop that adds up the digits reads the first
    len_1 of them. *)
Definition wots_checksum_l (p : xmss_params) (msg_base_w : list nat) : leak (list nat) :=
  let! csum := mkLeak (Ok (N.of_nat (wots_csum p msg_base_w))) [Access 0 (wots_len1 p)] in
  let csum := N.shiftl csum (N.of_nat (8 - (wots_len2 p * wots_log_w p) mod 8)) in
  let csum_bytes := ull_to_bytes ((wots_len2 p * wots_log_w p + 7) / 8) csum in
  base_w_l p (wots_len2 p) csum_bytes.

(** wots.c:102-107 chain_lengths, observed *)
Definition chain_lengths_l (p : xmss_params) (msg : bytes) : leak (list nat) :=
  let! l := base_w_l p (wots_len1 p) msg in
  let! c := wots_checksum_l p l in
  Ok (l ++ c).


(** wots.c:117-131 wots_pkgen, observed *)
Definition wots_pkgen_l (p : xmss_params) (seed pub_seed : bytes) (a : addr) : leak (bytes * addr) :=
  let! (pk, a) := expand_seed_l p seed pub_seed a in
  lforN (wots_len p) 0 (fun i '(pk, a) =>
    let a := set_chain_addr a (N.of_nat i) in
    let! x := rd_l pk (i * p_n p) (p_n p) in
    let! (y, a) := gen_chain_l p x 0 (wots_w p - 1) pub_seed a in
    let! pk := wr_l pk (i * p_n p) y in
    Ok (pk, a)) (pk, a).


(** wots.c:137-155 wots_sign, observed *)
Definition wots_sign_l (p : xmss_params) (msg seed pub_seed : bytes) (a : addr) : leak (bytes * addr) :=
  let! lengths := chain_lengths_l p msg in
  let! (sig, a) := expand_seed_l p seed pub_seed a in
  lforN (wots_len p) 0 (fun i '(sig, a) =>
    let a := set_chain_addr a (N.of_nat i) in
    let! li := rdc_l lengths i in
    let! x := rd_l sig (i * p_n p) (p_n p) in
    let! (y, a) := sign_chain (gen_chain_l p x 0 li pub_seed a) in
    let! sig := wr_l sig (i * p_n p) y in
    Ok (sig, a)) (sig, a).


(** xmss_commons.c:16-49 l_tree_loop, observed *)
Fixpoint l_tree_loop_l (p : xmss_params) (fuel l height : nat) (wots_pk pub_seed : bytes) (a : addr)
  : leak (bytes * addr) :=
  if! l <=? 1 then Ok (wots_pk, a) else
  match fuel with
  | O => NoFuel
  | S f =>
      let parent_nodes := l / 2 in
      let! (wots_pk, a) :=
        lforN parent_nodes 0 (fun i '(wots_pk, a) =>
          let a := set_tree_index a (N.of_nat i) in
          let! inp := rd_l wots_pk ((i * 2) * p_n p) (2 * p_n p) in
          let! (o, a) := thash_h_l p inp pub_seed a in
          let! wots_pk := wr_l wots_pk (i * p_n p) o in
          Ok (wots_pk, a)) (wots_pk, a) in
      let! (wots_pk, l) :=
        (if! Nat.odd l then
           let! x := rd_l wots_pk ((l - 1) * p_n p) (p_n p) in
           let! wots_pk := wr_l wots_pk ((l / 2) * p_n p) x in
           Ok (wots_pk, l / 2 + 1)
         else Ok (wots_pk, l / 2)) in
      let height := S height in
      let a := set_tree_height a (N.of_nat height) in
      l_tree_loop_l p f l height wots_pk pub_seed a
  end.


(** xmss_commons.c:16-49 l_tree, observed *)
Definition l_tree_l (p : xmss_params) (wots_pk pub_seed : bytes) (a : addr) : leak (bytes * addr) :=
  let l := wots_len p in
  let a := set_tree_height a 0 in
  let! (wots_pk, a) := l_tree_loop_l p l l 0 wots_pk pub_seed a in
  let! leaf := rd_l wots_pk 0 (p_n p) in
  Ok (leaf, a).


(** xmss_commons.c:104-113 gen_leaf_wots, observed *)
Definition gen_leaf_wots_l (p : xmss_params) (sk_seed pub_seed : bytes) (ltree_addr ots_addr : addr)
  : leak (bytes * addr * addr) :=
  let! (pk, ots_addr) := wots_pkgen_l p sk_seed pub_seed ots_addr in
  let! (leaf, ltree_addr) := l_tree_l p pk pub_seed ltree_addr in
  Ok (leaf, ltree_addr, ots_addr).


(** xmss_core.c:60-83 treehash_while, observed *)
Fixpoint treehash_while_l (p : xmss_params) (fuel : nat) (idx leaf_idx : N) (pub_seed : bytes)
    (stack : bytes) (heights : list nat) (offset : nat) (abuf : bytes) (aoff : nat) (node_addr : addr)
  : leak (bytes * list nat * nat * bytes * addr) :=
  let n := p_n p in
  if! offset <? 2 then Ok (stack, heights, offset, abuf, node_addr) else
  let! h1 := rdc_l heights (offset - 1) in
  let! h2 := rdc_l heights (offset - 2) in
  if! negb (h1 =? h2) then Ok (stack, heights, offset, abuf, node_addr) else
  match fuel with
  | O => NoFuel
  | S f =>
      let tree_idx := N.shiftr idx (N.of_nat (h1 + 1)) in
      let node_addr := set_tree_height node_addr (N.of_nat h1) in
      let node_addr := set_tree_index node_addr tree_idx in
      let! inp := rd_l stack ((offset - 2) * n) (2 * n) in
      let! (o, node_addr) := thash_h_l p inp pub_seed node_addr in
      let! stack := wr_l stack ((offset - 2) * n) o in
      let offset := offset - 1 in
      let! hh := rdc_l heights (offset - 1) in
      let! heights := wrc_l heights (offset - 1) (hh + 1) in
      let! abuf :=
        (if! (N.lxor (N.shiftr leaf_idx (N.of_nat (hh + 1))) 1 =? tree_idx)%N then
           let! x := rd_l stack ((offset - 1) * n) n in
           wr_l abuf (aoff + (hh + 1) * n) x
         else Ok abuf) in
      treehash_while_l p f idx leaf_idx pub_seed stack heights offset abuf aoff node_addr
  end.


(** xmss_core.c:19-86 treehash, observed *)
Definition treehash_l (p : xmss_params) (abuf : bytes) (aoff : nat) (sk_seed pub_seed : bytes)
    (leaf_idx : N) (subtree_addr : addr) : leak (bytes * bytes) :=
  let n := p_n p in
  let stack := uninit ((tree_height p + 1) * n) in
  let heights := uninit_nat (tree_height p + 1) in
  let ots_addr := set_type (copy_subtree_addr addr_zero subtree_addr) XMSS_ADDR_TYPE_OTS in
  let ltree_addr := set_type (copy_subtree_addr addr_zero subtree_addr) XMSS_ADDR_TYPE_LTREE in
  let node_addr := set_type (copy_subtree_addr addr_zero subtree_addr) XMSS_ADDR_TYPE_HASHTREE in
  let! two_h := shl1_int (tree_height p) in
  let! (stack, _, _, abuf, _, _, _) :=
    lforN (N.to_nat two_h) 0 (fun i '(stack, heights, offset, abuf, ots_addr, ltree_addr, node_addr) =>
      let idx := N.of_nat i in
      let ltree_addr := set_ltree_addr ltree_addr idx in
      let ots_addr := set_ots_addr ots_addr idx in
      let! (leaf, ltree_addr, ots_addr) := gen_leaf_wots_l p sk_seed pub_seed ltree_addr ots_addr in
      let! stack := wr_l stack (offset * n) leaf in
      let offset := offset + 1 in
      let! heights := wrc_l heights (offset - 1) 0 in
      let! abuf :=
        (if! (N.lxor leaf_idx 1 =? idx)%N then
           let! x := rd_l stack ((offset - 1) * n) n in
           wr_l abuf aoff x
         else Ok abuf) in
      let! (stack, heights, offset, abuf, node_addr) :=
        treehash_while_l p offset idx leaf_idx pub_seed stack heights offset abuf aoff node_addr in
      Ok (stack, heights, offset, abuf, ots_addr, ltree_addr, node_addr))
      (stack, heights, 0, abuf, ots_addr, ltree_addr, node_addr) in
  let! root := rd_l stack 0 n in
  Ok (root, abuf).


(** xmss_core.c:134-161 xmssmt_core_seed_keypair, observed *)
Definition xmssmt_core_seed_keypair_l (p : xmss_params) (pk sk seed : bytes) : leak (Z * bytes * bytes) :=
  let n := p_n p in
  let ib := index_bytes p in
  let auth_path := uninit (tree_height p * n) in
  let top_tree_addr := set_layer_addr addr_zero (u32 (f_d p + (2 ^ 32 - 1))) in   (* d - 1, unsigned *)
  let! sk := wr_l sk 0 (repeat 0%N ib) in
  let! s2 := rd_l seed 0 (2 * n) in
  let! sk := wr_l sk ib s2 in
  let! ps := rd_l seed (2 * n) n in
  let! sk := wr_l sk (ib + 3 * n) ps in
  let! ps := rd_l sk (ib + 3 * n) n in
  let! pk := wr_l pk n ps in
  let! sk_seed := rd_l sk ib n in
  let! pub_seed := rd_l pk n n in
  let! (root, _) := treehash_l p auth_path 0 sk_seed pub_seed 0 top_tree_addr in
  let! pk := wr_l pk 0 root in
  let! rt := rd_l pk 0 n in
  let! sk := wr_l sk (ib + 2 * n) rt in
  Ok (0%Z, pk, sk).


(** xmss_core.c:168-177 ref_xmssmt_core_keypair, observed *)
Definition ref_xmssmt_core_keypair_l (p : xmss_params) (pk sk : bytes) (r : nat -> N) : leak (Z * bytes * bytes) :=
  let seed := rand_take r 0 (3 * p_n p) in
  let! (_, pk, sk) := xmssmt_core_seed_keypair_l p pk sk seed in
  Ok (0%Z, pk, sk).


(** xmss_core.c:234-272 ref_sign_body, observed *)
Definition ref_sign_body_l (p : xmss_params) (idx : N) (sk sm : bytes) (smlen mlen : nat) : leak sign_out :=
  let n := p_n p in
  let ib := index_bytes p in
  let ots_addr := set_type addr_zero XMSS_ADDR_TYPE_OTS in
  let! x := rd_l sk 0 ib in
  let! sm := wr_l sm 0 x in
  let! sk := wr_l sk 0 (ull_to_bytes ib (u64 (idx + 1))) in
  let! sk_seed := rd_l sk ib n in
  let! sk_prf := rd_l sk (ib + n) n in
  let! pub_root := rd_l sk (ib + 2 * n) n in
  let! pub_seed := rd_l sk (ib + 3 * n) n in
  let! R := prf_l p (ull_to_bytes 32 idx) sk_prf in
  let! sm := wr_l sm ib R in
  if! sig_bytes p <? padding_len p + 3 * n then UB else
  let! (mhash, sm) := hash_message_l p (fun b => rd_l b ib n) pub_root idx sm
                        (sig_bytes p - padding_len p - 3 * n) mlen in
  let ots_addr := set_type ots_addr XMSS_ADDR_TYPE_OTS in
  let! two_h := shl1_int (tree_height p) in
  let! (_, sm, _, _, _) :=
    lforN (p_d p) 0 (fun i '(idx, sm, off, root, ots_addr) =>
      let idx_leaf := N.land idx (two_h - 1) in
      let idx := N.shiftr idx (N.of_nat (tree_height p)) in
      let ots_addr := set_layer_addr ots_addr (N.of_nat i) in
      let ots_addr := set_tree_addr ots_addr idx in
      let ots_addr := set_ots_addr ots_addr idx_leaf in
      let! (sig, ots_addr) := wots_sign_l p root sk_seed pub_seed ots_addr in
      let! sm := wr_l sm off sig in
      let off := off + wots_sig_bytes p in
      let! (root, sm) := treehash_l p sm off sk_seed pub_seed idx_leaf ots_addr in
      let off := off + tree_height p * n in
      Ok (idx, sm, off, root, ots_addr))
      (idx, sm, ib + n, mhash, ots_addr) in
  Ok (mkSign 0 sk sm smlen).


(** xmss_core.c:183-273 ref_xmssmt_core_sign, observed *)
Definition ref_xmssmt_core_sign_l (p : xmss_params) (sk sm : bytes) (smlen : nat) (m : bytes) : leak sign_out :=
  let ib := index_bytes p in
  let! sm := wr_l sm (sig_bytes p) m in
  let smlen := sig_bytes p + length m in
  let! x := rd_l sk 0 ib in
  let! idx := bytes_to_ull x in
  let! lim := shl1_ull (full_height p) in
  let last := (lim - 1)%N in
  if! (last <=? idx)%N then
    let! sk := wr_l sk 0 (repeat 255%N ib) in
    let! sk := wr_l sk ib (repeat 0%N (sk_bytes p - ib)) in
    if! (last <? idx)%N then Ok (mkSign (-2) sk sm smlen)
    else if! (full_height p =? 64) && (idx =? last)%N then Ok (mkSign (-2) sk sm smlen)
    else ref_sign_body_l p idx sk sm smlen (length m)
  else ref_sign_body_l p idx sk sm smlen (length m).


(** xmss.c:10-26 and 62-73 keypair_wrapper, observed *)
Definition keypair_wrapper_l (parse : (xmss_params -> N) -> xmss_params -> N -> res (option xmss_params))
    (skb : xmss_params -> N)
    (kp : xmss_params -> bytes -> bytes -> (nat -> N) -> leak (Z * bytes * bytes))
    (pk sk : bytes) (oid : N) (r : nat -> N) : leak (Z * bytes * bytes) :=
  let! op := parse skb uninit_params oid in
  match op with
  | None => Ok ((-1)%Z, pk, sk)
  | Some p =>
      let! pk := wr_l pk 0 (oid_to_bytes oid) in
      let! sk := wr_l sk 0 (oid_to_bytes oid) in
      let! (rc, pk', sk') := kp p (skipn XMSS_OID_LEN pk) (skipn XMSS_OID_LEN sk) r in
      Ok (rc, firstn XMSS_OID_LEN pk ++ pk', firstn XMSS_OID_LEN sk ++ sk')
  end.

(** xmss.c:28-43 and 75-90 sign_wrapper, observed *)
Definition sign_wrapper_l (parse : (xmss_params -> N) -> xmss_params -> N -> res (option xmss_params))
    (skb : xmss_params -> N)
    (sg : xmss_params -> bytes -> bytes -> nat -> bytes -> leak sign_out)
    (sk sm : bytes) (smlen : nat) (m : bytes) : leak sign_out :=
  let! oid := oid_of_bytes sk in
  let! op := parse skb uninit_params oid in
  match op with
  | None => Ok (mkSign (-1) sk sm smlen)
  | Some p =>
      let! o := sg p (skipn XMSS_OID_LEN sk) sm smlen m in
      Ok (mkSign (so_rc o) (firstn XMSS_OID_LEN sk ++ so_sk o) (so_sm o) (so_smlen o))
  end.

(** The API calls (xmss.c) with the reference core, observed; [mt] chooses between xmss_* and
    xmssmt_*. *)
Definition ref_keypair_seen (mt : bool) :=
  keypair_wrapper_l (if mt then xmssmt_parse_oid else xmss_parse_oid) (c_sk_bytes ref_core) ref_xmssmt_core_keypair_l.
Definition ref_sign_seen (mt : bool) :=
  sign_wrapper_l (if mt then xmssmt_parse_oid else xmss_parse_oid) (c_sk_bytes ref_core) ref_xmssmt_core_sign_l.

End WithEnv.
