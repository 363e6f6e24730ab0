(** Model of xmss_core_fast.c (the BDS tree traversal core).

    In C the byte arrays of a bds_state (stack, stacklevels, auth, keep, the nodes of the
    treehash instances, retain) and wots_sigs are pointers into the secret key, the scalar
    fields are copies.  The model loads the arrays into the state, works on them, and stores
    arrays and scalars back at the end; the arrays are disjoint from each other and from the
    regular part of sk, so this differs from C only in that an index running out of one
    array into its neighbour inside sk is UB here.  xmss(mt)_core_sign wipes sk while the
    pointers are live: there the model reloads the arrays from the wiped key and keeps the
    scalars (see [reload]). *)
From Verif Require Import Base ModelUtils ModelParams ModelHash ModelWots ModelCommons ModelCore.

(** xmss_core_fast.c:14-20 *)
Record treehash_inst := mkTh {
  th_h : nat; th_next_idx : N; th_stackusage : nat; th_completed : N; th_node : bytes }.

(** xmss_core_fast.c:22-31 *)
Record bds_state := mkBds {
  st_stack : bytes; st_stackoffset : nat; st_stacklevels : list N; st_auth : bytes;
  st_keep : bytes; st_treehash : list treehash_inst; st_retain : bytes; st_next_leaf : N }.

Definition set_stack (s : bds_state) x := mkBds x (st_stackoffset s) (st_stacklevels s) (st_auth s) (st_keep s) (st_treehash s) (st_retain s) (st_next_leaf s).
Definition set_stackoffset (s : bds_state) x := mkBds (st_stack s) x (st_stacklevels s) (st_auth s) (st_keep s) (st_treehash s) (st_retain s) (st_next_leaf s).
Definition set_stacklevels (s : bds_state) x := mkBds (st_stack s) (st_stackoffset s) x (st_auth s) (st_keep s) (st_treehash s) (st_retain s) (st_next_leaf s).
Definition set_auth (s : bds_state) x := mkBds (st_stack s) (st_stackoffset s) (st_stacklevels s) x (st_keep s) (st_treehash s) (st_retain s) (st_next_leaf s).
Definition set_keep (s : bds_state) x := mkBds (st_stack s) (st_stackoffset s) (st_stacklevels s) (st_auth s) x (st_treehash s) (st_retain s) (st_next_leaf s).
Definition set_treehash (s : bds_state) x := mkBds (st_stack s) (st_stackoffset s) (st_stacklevels s) (st_auth s) (st_keep s) x (st_retain s) (st_next_leaf s).
Definition set_retain (s : bds_state) x := mkBds (st_stack s) (st_stackoffset s) (st_stacklevels s) (st_auth s) (st_keep s) (st_treehash s) x (st_next_leaf s).
Definition set_next_leaf (s : bds_state) x := mkBds (st_stack s) (st_stackoffset s) (st_stacklevels s) (st_auth s) (st_keep s) (st_treehash s) (st_retain s) x.

(** [1U << k] *)
Definition shl1_uint (k : nat) : res N :=
  if k <? 32 then Ok (2 ^ N.of_nat k)%N else UB.

(** Number of treehash instances, tree_height - bds_k.  The C code declares a variable
    length array of that many elements: zero or (wrapped) negative is UB. *)
Definition th_count (p : xmss_params) : res nat :=
  if bds_k p <? tree_height p then Ok (tree_height p - bds_k p) else UB.

(** (1 << bds_k) - bds_k - 1 *)
Definition retain_count (p : xmss_params) : res nat :=
  let* x := shl1_int (bds_k p) in Ok (N.to_nat x - bds_k p - 1).

Section WithEnv.
Context {E : Env}.

(** xmss_core_fast.c:104-121 and 56-69: one treehash instance inside sk (7 + n bytes) *)
Definition load_th (p : xmss_params) (sk : bytes) (o : nat) : res treehash_inst :=
  let* b := rd sk o 1 in let* h := bytes_to_ull b in
  let* b := rd sk (o + 1) 4 in let* nx := bytes_to_ull b in
  let* b := rd sk (o + 5) 1 in let* su := bytes_to_ull b in
  let* b := rd sk (o + 6) 1 in let* co := bytes_to_ull b in
  let* nd := rd sk (o + 7) (p_n p) in
  Ok (mkTh (N.to_nat h) nx (N.to_nat su) co nd).
Definition store_th (p : xmss_params) (t : treehash_inst) : bytes :=
  ull_to_bytes 1 (N.of_nat (th_h t)) ++ ull_to_bytes 4 (th_next_idx t) ++
  ull_to_bytes 1 (N.of_nat (th_stackusage t)) ++ ull_to_bytes 1 (th_completed t) ++ th_node t.

(** xmss_core_fast.c:91-128, the body of the outer loop of xmssmt_deserialize_state:
    the state stored at offset [o], and the offset behind it. *)
Definition load_state (p : xmss_params) (sk : bytes) (o : nat) : res (bds_state * nat) :=
  let n := p_n p in
  let h := tree_height p in
  let* thc := th_count p in
  let* rc := retain_count p in
  let* stack := rd sk o ((h + 1) * n) in
  let o := o + (h + 1) * n in
  let* b := rd sk o 4 in let* so := bytes_to_ull b in
  let o := o + 4 in
  let* lv := rd sk o (h + 1) in
  let o := o + (h + 1) in
  let* au := rd sk o (h * n) in
  let o := o + h * n in
  let* kp := rd sk o ((h / 2) * n) in
  let o := o + (h / 2) * n in
  let* ths := forN thc 0 (fun j l => let* t := load_th p sk (o + j * (7 + n)) in Ok (l ++ [t])) [] in
  let o := o + thc * (7 + n) in
  let* rt := rd sk o (rc * n) in
  let o := o + rc * n in
  let* b := rd sk o 4 in let* nl := bytes_to_ull b in
  Ok (mkBds stack (N.to_nat so) lv au kp ths rt nl, o + 4).

(** The bytes of one stored state (xmss_core_fast.c:47-76 writes the scalars between the
    arrays that are already in place). *)
Definition store_state (p : xmss_params) (s : bds_state) : bytes :=
  st_stack s ++ ull_to_bytes 4 (N.of_nat (st_stackoffset s)) ++ st_stacklevels s ++ st_auth s ++
  st_keep s ++ concat (map (store_th p) (st_treehash s)) ++ st_retain s ++ ull_to_bytes 4 (st_next_leaf s).

(** 2*d - 1, unsigned *)
Definition nstates (p : xmss_params) : nat := 2 * p_d p - 1.

(** xmss_core_fast.c:80-133 xmssmt_deserialize_state: the states and the array wots_sigs.
    d = 0 makes 2*d-1 wrap: UB. *)
Definition xmssmt_deserialize_state (p : xmss_params) (sk : bytes) : res (list bds_state * bytes) :=
  if p_d p =? 0 then UB else
  let* (ss, o) := forN (nstates p) 0 (fun _ '(l, o) =>
      let* (s, o) := load_state p sk o in Ok (l ++ [s], o)) ([], index_bytes p + 4 * p_n p) in
  let* ws := rd sk o ((p_d p - 1) * wots_sig_bytes p) in
  Ok (ss, ws).

(** xmss_core_fast.c:38-78 xmssmt_serialize_state, together with the arrays. *)
Definition xmssmt_serialize_state (p : xmss_params) (sk : bytes) (ss : list bds_state) (ws : bytes) : res bytes :=
  wr sk (index_bytes p + 4 * p_n p) (concat (map (store_state p) ss) ++ ws).

(** The arrays of [a] with the scalars of [b] (used after sk has been wiped). *)
Definition reload_th (a b : treehash_inst) : treehash_inst :=
  mkTh (th_h b) (th_next_idx b) (th_stackusage b) (th_completed b) (th_node a).
Definition reload (a b : bds_state) : bds_state :=
  mkBds (st_stack a) (st_stackoffset b) (st_stacklevels a) (st_auth a) (st_keep a)
    (map (fun q => reload_th (fst q) (snd q)) (combine (st_treehash a) (st_treehash b)))
    (st_retain a) (st_next_leaf b).
Definition reload_all (l1 l2 : list bds_state) : list bds_state :=
  map (fun q => reload (fst q) (snd q)) (combine l1 l2).

(** xmss_core_fast.c:195-207 treehash_minheight_on_stack *)
Definition treehash_minheight_on_stack (p : xmss_params) (s : bds_state) (t : treehash_inst) : res N :=
  forN (th_stackusage t) 0 (fun i r =>
    if st_stackoffset s <=? i then UB else
    let* l := rdc (st_stacklevels s) (st_stackoffset s - i - 1) in
    Ok (if (l <? r)%N then l else r)) (f_tree_height p).

(** xmss_core_fast.c:259-269 = 412-422: store a node that is about to be merged as the
    right child.  [i] counts leaves.  (The C index expression for retain with a node number
    below 3, which only a corrupted state can reach, is modelled as UB.) *)
Definition place_node (p : xmss_params) (s : bds_state) (i : N) (nodeh : nat) (x : bytes) : res bds_state :=
  let n := p_n p in
  let h := tree_height p in
  if 32 <=? nodeh then UB else
  let q := N.shiftr i (N.of_nat nodeh) in
  if (q =? 1)%N then
    let* au := wr (st_auth s) (nodeh * n) x in Ok (set_auth s au)
  else if (nodeh <? h - bds_k p) && (q =? 3)%N then
    let* t := rdc (st_treehash s) nodeh in
    let* nd := wr (th_node t) 0 x in
    let* ths := wrc (st_treehash s) nodeh (mkTh (th_h t) (th_next_idx t) (th_stackusage t) (th_completed t) nd) in
    Ok (set_treehash s ths)
  else if (h - bds_k p <=? nodeh) then
    if (h <=? nodeh) || (q <? 3)%N then UB else
    let* b := shl1_int (h - 1 - nodeh) in
    let* rt := wr (st_retain s) ((N.to_nat b + nodeh - h + N.to_nat (N.shiftr (q - 3) 1)) * n) x in
    Ok (set_retain s rt)
  else Ok s.

(** xmss_core_fast.c:257-275, the while loop of treehash_init, on fuel.  [idx] is the leaf
    index, [i] the number of leaves done before (equal to idx - index). *)
Fixpoint treehash_init_while (p : xmss_params) (fuel : nat) (idx i : N) (pub_seed : bytes)
    (stack : bytes) (levels : list nat) (off : nat) (s : bds_state) (node_addr : addr)
  : res (bytes * list nat * nat * bds_state * addr) :=
  let n := p_n p in
  if off <=? 1 then Ok (stack, levels, off, s, node_addr) else
  let* l1 := rdc levels (off - 1) in
  let* l2 := rdc levels (off - 2) in
  if negb (l1 =? l2) then Ok (stack, levels, off, s, node_addr) else
  match fuel with
  | O => NoFuel
  | S f =>
      let* x := rd stack ((off - 1) * n) n in
      let* s := place_node p s i l1 x in
      let node_addr := set_tree_height node_addr (N.of_nat l1) in
      let node_addr := set_tree_index node_addr (N.shiftr idx (N.of_nat (l1 + 1))) in
      let* inp := rd stack ((off - 2) * n) (2 * n) in
      let* (o, node_addr) := thash_h p inp pub_seed node_addr in
      let* stack := wr stack ((off - 2) * n) o in
      let* levels := wrc levels (off - 2) (l2 + 1) in
      treehash_init_while p f idx i pub_seed stack levels (off - 1) s node_addr
  end.

(** xmss_core_fast.c:214-282 treehash_init with index = 0 (the only value used):
    the root and the state. *)
Definition treehash_init (p : xmss_params) (height : nat) (s : bds_state) (sk_seed pub_seed : bytes)
    (subtree : addr) : res (bytes * bds_state) :=
  let n := p_n p in
  let ots_addr := set_type (copy_subtree_addr addr_zero subtree) 0 in
  let ltree_addr := set_type (copy_subtree_addr addr_zero subtree) 1 in
  let node_addr := set_type (copy_subtree_addr addr_zero subtree) 2 in
  let stack := uninit ((height + 1) * n) in
  let levels := uninit_nat (height + 1) in
  let* lastnode := shl1_int height in
  let* thc := th_count p in
  let* ths := forN thc 0 (fun i l =>
    let* t := rdc l i in
    wrc l i (mkTh i (th_next_idx t) 0 1 (th_node t))) (st_treehash s) in
  let s := set_treehash s ths in
  let* (stack, _, _, s, _, _, _) :=
    forN (N.to_nat lastnode) 0 (fun i '(stack, levels, off, s, ltree_addr, ots_addr, node_addr) =>
      let idx := N.of_nat i in
      let ltree_addr := set_ltree_addr ltree_addr idx in
      let ots_addr := set_ots_addr ots_addr idx in
      let* (leaf, ltree_addr, ots_addr) := gen_leaf_wots p sk_seed pub_seed ltree_addr ots_addr in
      let* stack := wr stack (off * n) leaf in
      let* levels := wrc levels off 0 in
      let off := off + 1 in
      let* s := (if (0 <? thc) && (i =? 3) then
                   let* x := rd stack (off * n) n in
                   let* t := rdc (st_treehash s) 0 in
                   let* nd := wr (th_node t) 0 x in
                   let* ths := wrc (st_treehash s) 0 (mkTh (th_h t) (th_next_idx t) (th_stackusage t) (th_completed t) nd) in
                   Ok (set_treehash s ths)
                 else Ok s) in
      let* (stack, levels, off, s, node_addr) :=
        treehash_init_while p off idx idx pub_seed stack levels off s node_addr in
      Ok (stack, levels, off, s, ltree_addr, ots_addr, node_addr))
      (stack, levels, 0, s, ltree_addr, ots_addr, node_addr) in
  let* root := rd stack 0 n in
  Ok (root, s).

(** xmss_core_fast.c:308-317, the while loop of treehash_update: recursion on the
    instance's stackusage.  Result: node buffer, its height, stackusage, stackoffset. *)
Fixpoint treehash_update_while (p : xmss_params) (usage : nat) (next_idx : N) (pub_seed : bytes)
    (s : bds_state) (off : nat) (node : bytes) (nodeheight : nat) (node_addr : addr)
  : res (bytes * nat * nat * nat) :=
  let n := p_n p in
  match usage with
  | O => Ok (node, nodeheight, 0, off)
  | S u =>
      if off =? 0 then UB else
      let* l := rdc (st_stacklevels s) (off - 1) in
      if (l =? N.of_nat nodeheight)%N then
        let* lft := rd (st_stack s) ((off - 1) * n) n in
        let node_addr := set_tree_height node_addr (N.of_nat nodeheight) in
        let node_addr := set_tree_index node_addr (N.shiftr next_idx (N.of_nat (nodeheight + 1))) in
        let* (o, node_addr) := thash_h p (lft ++ node) pub_seed node_addr in
        treehash_update_while p u next_idx pub_seed s (off - 1) o (nodeheight + 1) node_addr
      else Ok (node, nodeheight, S u, off)
  end.

(** xmss_core_fast.c:284-329 treehash_update of instance number [j] *)
Definition treehash_update (p : xmss_params) (j : nat) (s : bds_state) (sk_seed pub_seed : bytes)
    (subtree : addr) : res bds_state :=
  let n := p_n p in
  let* t := rdc (st_treehash s) j in
  let ots_addr := set_type (copy_subtree_addr addr_zero subtree) 0 in
  let ltree_addr := set_type (copy_subtree_addr addr_zero subtree) 1 in
  let node_addr := set_type (copy_subtree_addr addr_zero subtree) 2 in
  let ltree_addr := set_ltree_addr ltree_addr (th_next_idx t) in
  let ots_addr := set_ots_addr ots_addr (th_next_idx t) in
  let* (leaf, _, _) := gen_leaf_wots p sk_seed pub_seed ltree_addr ots_addr in
  let* (node, nodeheight, usage, off) :=
    treehash_update_while p (th_stackusage t) (th_next_idx t) pub_seed s (st_stackoffset s) leaf 0 node_addr in
  let s := set_stackoffset s off in
  if nodeheight =? th_h t then
    let* nd := wr (th_node t) 0 node in
    let* ths := wrc (st_treehash s) j (mkTh (th_h t) (th_next_idx t) usage 1 nd) in
    Ok (set_treehash s ths)
  else
    let* stack := wr (st_stack s) (off * n) node in
    let* lv := wrc (st_stacklevels s) off (u8 (N.of_nat nodeheight)) in
    let* ths := wrc (st_treehash s) j
                  (mkTh (th_h t) (u64 (th_next_idx t + 1)) ((usage + 1) mod 256) (th_completed t) (th_node t)) in
    Ok (mkBds stack (off + 1) lv (st_auth s) (st_keep s) ths (st_retain s) (st_next_leaf s)).

(** xmss_core_fast.c:346-362: the instance to update next ([None]: all completed). *)
Definition select_treehash (p : xmss_params) (s : bds_state) : res (option nat) :=
  let* thc := th_count p in
  let* (level, _) :=
    forN thc 0 (fun i '(level, l_min) =>
      let* t := rdc (st_treehash s) i in
      let* low := (if negb (th_completed t =? 0)%N then Ok (f_tree_height p)
                   else if th_stackusage t =? 0 then Ok (N.of_nat i)
                   else treehash_minheight_on_stack p s t) in
      Ok (if (low <? l_min)%N then (Some i, low) else (level, l_min)))
      (None, f_tree_height p) in
  Ok level.

(** A C loop [for (j = 0; j < k; j++) { ... break ... }] with a huge bound [k]; the body
    returns whether it executed break.  Structural on the binary bound. *)
Fixpoint loop_pos {S : Type} (k : positive) (body : S -> res (S * bool)) (s : S) : res (S * bool) :=
  match k with
  | xH => body s
  | xO q => let* (s, b) := loop_pos q body s in if b then Ok (s, true) else loop_pos q body s
  | xI q => let* (s, b) := body s in
            if b then Ok (s, true) else
            let* (s, b) := loop_pos q body s in if b then Ok (s, true) else loop_pos q body s
  end.
Definition loopN {S : Type} (k : N) (body : S -> res (S * bool)) (s : S) : res (S * bool) :=
  match k with N0 => Ok (s, false) | Npos q => loop_pos q body s end.

(** Conversion of an unsigned int to (signed) char, the return type of bds_treehash_update,
    and back to unsigned int in the caller. *)
Definition via_char (x : N) : N :=
  let b := (x mod 256)%N in if (b <? 128)%N then b else (2 ^ 32 - 256 + b)%N.

(** xmss_core_fast.c:335-370 bds_treehash_update: state and remaining updates as seen by
    the caller (which stores the char in an unsigned int). *)
Definition bds_treehash_update (p : xmss_params) (s : bds_state) (updates : N) (sk_seed pub_seed : bytes)
    (subtree : addr) : res (bds_state * N) :=
  let* (s, used, _) :=
    loopN updates (fun '(s, used) =>
      let* sel := select_treehash p s in
      match sel with
      | None => Ok ((s, used), true)
      | Some j => let* s := treehash_update p j s sk_seed pub_seed subtree in
                  Ok ((s, (used + 1)%N), false)
      end) (s, 0%N) in
  Ok (s, via_char (updates - used)).

(** xmss_core_fast.c:410-429, the while loop of bds_state_update, on fuel *)
Fixpoint bds_state_update_while (p : xmss_params) (fuel : nat) (idx : N) (pub_seed : bytes)
    (s : bds_state) (node_addr : addr) : res (bds_state * addr) :=
  let n := p_n p in
  let off := st_stackoffset s in
  if off <=? 1 then Ok (s, node_addr) else
  let* l1 := rdc (st_stacklevels s) (off - 1) in
  let* l2 := rdc (st_stacklevels s) (off - 2) in
  if negb (l1 =? l2)%N then Ok (s, node_addr) else
  match fuel with
  | O => NoFuel
  | S f =>
      let nodeh := N.to_nat l1 in
      let* x := rd (st_stack s) ((off - 1) * n) n in
      let* s := place_node p s idx nodeh x in
      let node_addr := set_tree_height node_addr l1 in
      if 31 <=? nodeh then UB else
      let node_addr := set_tree_index node_addr (N.shiftr idx (l1 + 1)) in
      let* inp := rd (st_stack s) ((off - 2) * n) (2 * n) in
      let* (o, node_addr) := thash_h p inp pub_seed node_addr in
      let* stack := wr (st_stack s) ((off - 2) * n) o in
      let* lv := wrc (st_stacklevels s) (off - 2) (u8 (l2 + 1)) in
      bds_state_update_while p f idx pub_seed
        (set_stackoffset (set_stacklevels (set_stack s stack) lv) (off - 1)) node_addr
  end.

(** xmss_core_fast.c:376-432 bds_state_update (the callers ignore its return value).
    next_leaf is an unsigned int copied into an int: at most 2^H here. *)
Definition bds_state_update (p : xmss_params) (s : bds_state) (sk_seed pub_seed : bytes) (subtree : addr)
  : res bds_state :=
  let n := p_n p in
  let idx := st_next_leaf s in
  let* two_h := shl1_int (tree_height p) in
  let* thc := th_count p in
  if (idx =? two_h)%N then Ok s else
  let ots_addr := set_type (copy_subtree_addr addr_zero subtree) 0 in
  let ltree_addr := set_type (copy_subtree_addr addr_zero subtree) 1 in
  let node_addr := set_type (copy_subtree_addr addr_zero subtree) 2 in
  let ots_addr := set_ots_addr ots_addr idx in
  let ltree_addr := set_ltree_addr ltree_addr idx in
  let* (leaf, _, _) := gen_leaf_wots p sk_seed pub_seed ltree_addr ots_addr in
  let off := st_stackoffset s in
  let* stack := wr (st_stack s) (off * n) leaf in
  let* lv := wrc (st_stacklevels s) off 0%N in
  let off := off + 1 in
  let s := set_stackoffset (set_stacklevels (set_stack s stack) lv) off in
  let* s := (if (0 <? thc) && (idx =? 3)%N then
               let* x := rd (st_stack s) (off * n) n in
               let* t := rdc (st_treehash s) 0 in
               let* nd := wr (th_node t) 0 x in
               let* ths := wrc (st_treehash s) 0 (mkTh (th_h t) (th_next_idx t) (th_stackusage t) (th_completed t) nd) in
               Ok (set_treehash s ths)
             else Ok s) in
  let* (s, _) := bds_state_update_while p off idx pub_seed s node_addr in
  Ok (set_next_leaf s (u32 (st_next_leaf s + 1))).

(** xmss_core_fast.c:463-468: the lowest zero bit of leaf_idx below tree_height, else tree_height *)
Fixpoint find_tau (k i : nat) (leaf_idx : N) : nat :=
  match k with
  | O => i
  | S k' => if N.testbit leaf_idx (N.of_nat i) then find_tau k' (S i) leaf_idx else i
  end.

(** xmss_core_fast.c:439-508 bds_round *)
Definition bds_round (p : xmss_params) (s : bds_state) (leaf_idx : N) (sk_seed pub_seed : bytes)
    (subtree : addr) : res bds_state :=
  let n := p_n p in
  let h := tree_height p in
  let* thc := th_count p in
  let ots_addr := set_type (copy_subtree_addr addr_zero subtree) 0 in
  let ltree_addr := set_type (copy_subtree_addr addr_zero subtree) 1 in
  let node_addr := set_type (copy_subtree_addr addr_zero subtree) 2 in
  let tau := find_tau h 0 leaf_idx in
  let* buf := (if 0 <? tau then
                 let* x := rd (st_auth s) ((tau - 1) * n) n in
                 let* y := rd (st_keep s) (((tau - 1) / 2) * n) n in
                 Ok (x ++ y)
               else Ok (uninit (2 * n))) in
  let* s := (if negb (N.testbit leaf_idx (N.of_nat (tau + 1))) && (tau <? h - 1) then
               let* x := rd (st_auth s) (tau * n) n in
               let* kp := wr (st_keep s) ((tau / 2) * n) x in
               Ok (set_keep s kp)
             else Ok s) in
  if tau =? 0 then
    let ltree_addr := set_ltree_addr ltree_addr leaf_idx in
    let ots_addr := set_ots_addr ots_addr leaf_idx in
    let* (leaf, _, _) := gen_leaf_wots p sk_seed pub_seed ltree_addr ots_addr in
    let* au := wr (st_auth s) 0 leaf in
    Ok (set_auth s au)
  else
    let node_addr := set_tree_height node_addr (N.of_nat (tau - 1)) in
    let node_addr := set_tree_index node_addr (N.shiftr leaf_idx (N.of_nat tau)) in
    let* (o, _) := thash_h p buf pub_seed node_addr in
    let* au := wr (st_auth s) (tau * n) o in
    let* au := forN tau 0 (fun i au =>
      if i <? thc then
        let* t := rdc (st_treehash s) i in
        let* x := rd (th_node t) 0 n in
        wr au (i * n) x
      else
        let* b := shl1_int (h - 1 - i) in
        let offset := N.to_nat b + i - h in
        let rowidx := N.to_nat (u32 (N.shiftr (N.shiftr leaf_idx (N.of_nat i) - 1) 1)) in
        let* x := rd (st_retain s) ((offset + rowidx) * n) n in
        wr au (i * n) x) au in
    let s := set_auth s au in
    let* lim := shl1_uint h in
    let* ths := forN (Nat.min tau thc) 0 (fun i ths =>
      let* b := shl1_int i in
      let startidx := u32 (leaf_idx + 1 + 3 * b)%N in
      if (startidx <? lim)%N then
        let* t := rdc ths i in
        wrc ths i (mkTh i startidx 0 0 (th_node t))
      else Ok ths) (st_treehash s) in
    Ok (set_treehash s ths).

(** xmss_core_fast.c:517-531 xmss_xmssmt_core_sk_bytes (unsigned int arithmetic) *)
Definition fast_core_sk_bytes (p : xmss_params) : N :=
  let n := f_n p in
  let h := f_tree_height p in
  u32 (f_index_bytes p + 4 * n
   + u32 (2 * f_d p + (2 ^ 32 - 1)) * (
       (h + 1) * n + 4 + h + 1 + h * n + N.shiftr h 1 * n
       + u32 (h + (2 ^ 32 - f_bds_k p)) * (7 + n)
       + u32 (2 ^ f_bds_k p + (2 ^ 32 - f_bds_k p) + (2 ^ 32 - 1)) * n + 4)
   + u32 (f_d p + (2 ^ 32 - 1)) * f_wots_sig_bytes p)%N.

(** xmss_core_fast.c:538-575 xmss_core_keypair.  The four index bytes are written one by
    one regardless of index_bytes. *)
Definition fast_xmss_core_keypair (p : xmss_params) (pk sk : bytes) (r : nat -> N) : res (Z * bytes * bytes) :=
  let n := p_n p in
  let ib := index_bytes p in
  let* (ss, ws) := xmssmt_deserialize_state p sk in
  let* s := rdc ss 0 in
  let s := set_next_leaf (set_stackoffset s 0) 0%N in
  let* sk := wr sk 0 (repeat 0%N 4) in
  let* sk := wr sk ib (rand_take r 0 (2 * n)) in
  let* sk := wr sk (ib + 3 * n) (rand_take r (2 * n) n) in
  let* ps := rd sk (ib + 3 * n) n in
  let* pk := wr pk n ps in
  let* sk_seed := rd sk ib n in
  let* (root, s) := treehash_init p (tree_height p) s sk_seed ps addr_zero in
  let* pk := wr pk 0 root in
  let* sk := wr sk (ib + 2 * n) root in
  let* ss := wrc ss 0 s in
  let* sk := xmssmt_serialize_state p sk ss ws in
  Ok (0%Z, pk, sk).

(** xmss_core_fast.c:584-720 xmss_core_sign *)
Definition fast_sign_body (p : xmss_params) (idx : N) (sk : bytes) (ss : list bds_state) (ws : bytes)
    (sm m : bytes) : res sign_out :=
  let n := p_n p in
  let ib := index_bytes p in
  let* sk_seed := rd sk ib n in
  let* sk_prf := rd sk (ib + n) n in
  let* pub_seed := rd sk (ib + 3 * n) n in
  let* s := rdc ss 0 in
  let* sk := wr sk 0 (ull_to_bytes 4 (idx + 1)) in
  let* R := prf p (ull_to_bytes 32 idx) sk_prf in
  let* sm := wr sm (sig_bytes p) m in
  let* pub_root := rd sk (ib + 2 * n) n in
  if sig_bytes p <? padding_len p + 3 * n then UB else
  let* (msg_h, sm) := hash_message p (fun _ => Ok R) pub_root idx sm
                        (sig_bytes p - padding_len p - 3 * n) (length m) in
  let* sm := wr sm 0 (ull_to_bytes 4 idx) in
  let* sm := wr sm 4 R in
  let ots_addr := set_ots_addr (set_type addr_zero 0) idx in
  let* (sig, ots_addr) := wots_sign p msg_h sk_seed pub_seed ots_addr in
  let o := 4 + n in
  let* sm := wr sm o sig in
  let o := o + wots_sig_bytes p in
  let* au := rd (st_auth s) 0 (tree_height p * n) in
  let* sm := wr sm o au in
  let* lim := shl1_uint (tree_height p) in
  let* s :=
    (if (idx <? lim - 1)%N then
       let* s := bds_round p s idx sk_seed pub_seed ots_addr in
       let* (s, _) := bds_treehash_update p s (N.shiftr (f_tree_height p - f_bds_k p) 1) sk_seed pub_seed ots_addr in
       Ok s
     else Ok s) in
  let o := o + tree_height p * n in
  let* sm := wr sm o m in
  let* ss := wrc ss 0 s in
  let* sk := xmssmt_serialize_state p sk ss ws in
  Ok (mkSign 0 sk sm (o + length m)).

Definition fast_xmss_core_sign (p : xmss_params) (sk sm : bytes) (smlen : nat) (m : bytes) : res sign_out :=
  let ib := index_bytes p in
  let* (ss, ws) := xmssmt_deserialize_state p sk in
  let* x := rd sk 0 4 in
  let* idx := bytes_to_ull x in
  let* lim := shl1_ull (full_height p) in
  let last := (lim - 1)%N in
  if (last <=? idx)%N then
    let* sk := wr sk 0 (repeat 255%N ib) in
    let* sk := wr sk ib (repeat 0%N (sk_bytes p - ib)) in
    if (last <? idx)%N then Ok (mkSign (-2) sk sm smlen)
    else if (full_height p =? 64) && (idx =? last)%N then Ok (mkSign (-2) sk sm smlen)
    else
      let* (zs, ws) := xmssmt_deserialize_state p sk in
      fast_sign_body p idx sk (reload_all zs ss) ws sm m
  else fast_sign_body p idx sk ss ws sm m.

(** xmss_core_fast.c:727-776 xmssmt_core_keypair *)
Definition fast_xmssmt_core_keypair (p : xmss_params) (pk sk : bytes) (r : nat -> N) : res (Z * bytes * bytes) :=
  let n := p_n p in
  let ib := index_bytes p in
  let* (ss, ws) := xmssmt_deserialize_state p sk in
  let ss := map (fun s => set_next_leaf (set_stackoffset s 0) 0%N) ss in
  let* sk := wr sk 0 (repeat 0%N ib) in
  let* sk := wr sk ib (rand_take r 0 (2 * n)) in
  let* sk := wr sk (ib + 3 * n) (rand_take r (2 * n) n) in
  let* ps := rd sk (ib + 3 * n) n in
  let* pk := wr pk n ps in
  let* sk_seed := rd sk ib n in
  let* (pk, ss, ws, a) :=
    forN (p_d p - 1) 0 (fun i '(pk, ss, ws, a) =>
      let* s := rdc ss i in
      let* (root, s) := treehash_init p (tree_height p) s sk_seed ps a in
      let* pk := wr pk 0 root in
      let* ss := wrc ss i s in
      let a := set_layer_addr a (N.of_nat (i + 1)) in
      let* (sig, a) := wots_sign p root sk_seed ps a in
      let* ws := wr ws (i * wots_sig_bytes p) sig in
      Ok (pk, ss, ws, a)) (pk, ss, ws, set_layer_addr addr_zero 0) in
  let* s := rdc ss (p_d p - 1) in
  let* (root, s) := treehash_init p (tree_height p) s sk_seed ps a in
  let* pk := wr pk 0 root in
  let* ss := wrc ss (p_d p - 1) s in
  let* sk := wr sk (ib + 2 * n) root in
  let* sk := xmssmt_serialize_state p sk ss ws in
  Ok (0%Z, pk, sk).

(** xmss_core_fast.c:161-193 deep_state_swap: exchanges the complete contents. *)
Definition deep_state_swap (ss : list bds_state) (a b : nat) : res (list bds_state) :=
  let* x := rdc ss a in
  let* y := rdc ss b in
  let* ss := wrc ss a y in
  wrc ss b x.

(** [idx >> k] on a 64-bit value: UB for k >= 64 *)
Definition shr_ull (x : N) (k : nat) : res N :=
  if k <? 64 then Ok (N.shiftr x (N.of_nat k)) else UB.

(** The variables of the update loop of xmssmt_core_sign *)
Record mt_vars := mkMt {
  mv_ss : list bds_state; mv_ws : bytes; mv_addr : addr; mv_ots : addr;
  mv_updates : N; mv_swap : Z }.

(** xmss_core_fast.c:941-982, the body of the update loop for layer [i] *)
Definition mt_layer_step (p : xmss_params) (idx : N) (sk_seed pub_seed : bytes) (i : nat) (v : mt_vars) : res mt_vars :=
  let h := tree_height p in
  let d := p_d p in
  let* b := shl1_ull ((i + 1) * h) in
  let* full := shl1_ull (full_height p) in
  let* two_h := shl1_int h in
  if negb (N.land (idx + 1) (b - 1) =? 0)%N then
    let* x := shr_ull idx (h * i) in
    let idx_leaf := u32 (N.land x (two_h - 1)) in
    let* idx_tree := shr_ull idx (h * (i + 1)) in
    let a := set_layer_addr (mv_addr v) (N.of_nat i) in
    let a := set_tree_addr a idx_tree in
    let* s := rdc (mv_ss v) i in
    let* s := (if (Z.of_nat i =? mv_swap v + 1)%Z then bds_round p s idx_leaf sk_seed pub_seed a else Ok s) in
    let* (s, updates) := bds_treehash_update p s (mv_updates v) sk_seed pub_seed a in
    let* ss := wrc (mv_ss v) i s in
    let a := set_tree_addr a (idx_tree + 1) in
    let* lim := shl1_ull (full_height p - h * i) in
    if (u64 ((1 + idx_tree) * two_h + idx_leaf) <? lim)%N then
      if (0 <? i) && (0 <? updates)%N then
        let* nx := rdc ss (d + i) in
        if (st_next_leaf nx <? full)%N then
          let* nx := bds_state_update p nx sk_seed pub_seed a in
          let* ss := wrc ss (d + i) nx in
          Ok (mkMt ss (mv_ws v) a (mv_ots v) (u32 (updates + (2 ^ 32 - 1))) (mv_swap v))
        else Ok (mkMt ss (mv_ws v) a (mv_ots v) updates (mv_swap v))
      else Ok (mkMt ss (mv_ws v) a (mv_ots v) updates (mv_swap v))
    else Ok (mkMt ss (mv_ws v) a (mv_ots v) updates (mv_swap v))
  else if (idx <? full - 1)%N then
    let* ss := deep_state_swap (mv_ss v) (d + i) i in
    let* t := shr_ull (idx + 1) ((i + 2) * h) in
    let* l := shr_ull idx ((i + 1) * h) in
    let ots := set_layer_addr (mv_ots v) (N.of_nat (i + 1)) in
    let ots := set_tree_addr ots t in
    let ots := set_ots_addr ots (N.land (l + 1) (two_h - 1)) in
    let* s := rdc ss i in
    let* (sig, ots) := wots_sign p (st_stack s) sk_seed pub_seed ots in
    let* ws := wr (mv_ws v) (i * wots_sig_bytes p) sig in
    let* nx := rdc ss (d + i) in
    let* ss := wrc ss (d + i) (set_next_leaf (set_stackoffset nx 0) 0%N) in
    let ths := map (fun t => mkTh (th_h t) (th_next_idx t) (th_stackusage t) 1 (th_node t)) (st_treehash s) in
    let* ss := wrc ss i (set_treehash s ths) in
    Ok (mkMt ss ws (mv_addr v) ots (u32 (mv_updates v + (2 ^ 32 - 1))) (Z.of_nat i))
  else Ok v.

(** xmss_core_fast.c:785-988 xmssmt_core_sign, the part after the exhaustion check. *)
Definition fast_mt_sign_body (p : xmss_params) (idx : N) (sk : bytes) (ss : list bds_state) (ws : bytes)
    (sm m : bytes) : res sign_out :=
  let n := p_n p in
  let ib := index_bytes p in
  let h := tree_height p in
  let* sk_seed := rd sk ib n in
  let* sk_prf := rd sk (ib + n) n in
  let* pub_seed := rd sk (ib + 3 * n) n in
  let* sk := wr sk 0 (ull_to_bytes ib (u64 (idx + 1))) in
  let* R := prf p (ull_to_bytes 32 idx) sk_prf in
  let* sm := wr sm (sig_bytes p) m in
  let* pub_root := rd sk (ib + 2 * n) n in
  if sig_bytes p <? padding_len p + 3 * n then UB else
  let* (msg_h, sm) := hash_message p (fun _ => Ok R) pub_root idx sm
                        (sig_bytes p - padding_len p - 3 * n) (length m) in
  let* sm := wr sm 0 (ull_to_bytes ib idx) in
  let* sm := wr sm ib R in
  let ots_addr := set_type addr_zero 0 in
  let* idx_tree := shr_ull idx h in
  let* two_h := shl1_int h in
  let idx_leaf := u32 (N.land idx (two_h - 1)) in
  let ots_addr := set_layer_addr ots_addr 0 in
  let ots_addr := set_tree_addr ots_addr idx_tree in
  let ots_addr := set_ots_addr ots_addr idx_leaf in
  let* (sig, ots_addr) := wots_sign p msg_h sk_seed pub_seed ots_addr in
  let o := ib + n in
  let* sm := wr sm o sig in
  let o := o + wots_sig_bytes p in
  let* s0 := rdc ss 0 in
  let* au := rd (st_auth s0) 0 (h * n) in
  let* sm := wr sm o au in
  let o := o + h * n in
  let* (sm, o) := forN (p_d p - 1) 1 (fun i '(sm, o) =>
    let* sg := rd ws ((i - 1) * wots_sig_bytes p) (wots_sig_bytes p) in
    let* sm := wr sm o sg in
    let o := o + wots_sig_bytes p in
    let* si := rdc ss i in
    let* au := rd (st_auth si) 0 (h * n) in
    let* sm := wr sm o au in
    Ok (sm, o + h * n)) (sm, o) in
  let a := set_tree_addr addr_zero (idx_tree + 1) in
  let* full := shl1_ull (full_height p) in
  let* ss := (if (u64 ((1 + idx_tree) * two_h + idx_leaf) <? full)%N then
                let* nx := rdc ss (p_d p) in
                let* nx := bds_state_update p nx sk_seed pub_seed a in
                wrc ss (p_d p) nx
              else Ok ss) in
  let* v := forN (p_d p) 0 (mt_layer_step p idx sk_seed pub_seed)
              (mkMt ss ws a ots_addr (N.shiftr (f_tree_height p - f_bds_k p) 1) (-1)) in
  let* sm := wr sm o m in
  let* sk := xmssmt_serialize_state p sk (mv_ss v) (mv_ws v) in
  Ok (mkSign 0 sk sm (o + length m)).

(** xmss_core_fast.c:785-858 *)
Definition fast_xmssmt_core_sign (p : xmss_params) (sk sm : bytes) (smlen : nat) (m : bytes) : res sign_out :=
  let ib := index_bytes p in
  let* (ss, ws) := xmssmt_deserialize_state p sk in
  let* x := rd sk 0 ib in
  let* idx := bytes_to_ull x in
  let* lim := shl1_ull (full_height p) in
  let last := (lim - 1)%N in
  if (last <=? idx)%N then
    let* sk := wr sk 0 (repeat 255%N ib) in
    let* sk := wr sk ib (repeat 0%N (sk_bytes p - ib)) in
    if (last <? idx)%N then Ok (mkSign (-2) sk sm smlen)
    else if (full_height p =? 64) && (idx =? last)%N then Ok (mkSign (-2) sk sm smlen)
    else
      let* (zs, ws) := xmssmt_deserialize_state p sk in
      fast_mt_sign_body p idx sk (reload_all zs ss) ws sm m
  else fast_mt_sign_body p idx sk ss ws sm m.

End WithEnv.
