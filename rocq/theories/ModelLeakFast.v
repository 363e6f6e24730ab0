(** What can be observed of the fast core: the functions of ModelCoreFast again, recording the
    observable events as in ModelLeak.  The scalars of the traversal state and the stack levels
    steer the control flow; the node values are data. *)
From Verif Require Import Base ModelUtils ModelParams ModelHash ModelWots ModelCommons ModelCore ModelCoreFast ModelXmss ModelLeak.

(** the loop of ModelCoreFast *)
Fixpoint lloop_pos {S : Type} (k : positive) (body : S -> leak (S * bool)) (s : S) : leak (S * bool) :=
  match k with
  | xH => body s
  | xO q => let! (s, b) := lloop_pos q body s in if b then Ok (s, true) else lloop_pos q body s
  | xI q => let! (s, b) := body s in
            if b then Ok (s, true) else
            let! (s, b) := lloop_pos q body s in if b then Ok (s, true) else lloop_pos q body s
  end.
Definition lloopN {S : Type} (k : N) (body : S -> leak (S * bool)) (s : S) : leak (S * bool) :=
  match k with N0 => Ok (s, false) | Npos q => lloop_pos q body s end.

Section WithEnv.
Context {E : Env}.

(** xmss_core_fast.c:104-121 and 56-69 load_th, observed *)
Definition load_th_l (p : xmss_params) (sk : bytes) (o : nat) : leak treehash_inst :=
  let! b := rd_l sk o 1 in let! h := bytes_to_ull b in
  let! b := rd_l sk (o + 1) 4 in let! nx := bytes_to_ull b in
  let! b := rd_l sk (o + 5) 1 in let! su := bytes_to_ull b in
  let! b := rd_l sk (o + 6) 1 in let! co := bytes_to_ull b in
  let! nd := rd_l sk (o + 7) (p_n p) in
  Ok (mkTh (N.to_nat h) nx (N.to_nat su) co nd).

(** xmss_core_fast.c:91-128 load_state, observed *)
Definition load_state_l (p : xmss_params) (sk : bytes) (o : nat) : leak (bds_state * nat) :=
  let n := p_n p in
  let h := tree_height p in
  let! thc := th_count p in
  let! rc := retain_count p in
  let! stack := rd_l sk o ((h + 1) * n) in
  let o := o + (h + 1) * n in
  let! b := rd_l sk o 4 in let! so := bytes_to_ull b in
  let o := o + 4 in
  let! lv := rd_l sk o (h + 1) in
  let o := o + (h + 1) in
  let! au := rd_l sk o (h * n) in
  let o := o + h * n in
  let! kp := rd_l sk o ((h / 2) * n) in
  let o := o + (h / 2) * n in
  let! ths := lforN thc 0 (fun j l => let! t := load_th_l p sk (o + j * (7 + n)) in Ok (l ++ [t])) [] in
  let o := o + thc * (7 + n) in
  let! rt := rd_l sk o (rc * n) in
  let o := o + rc * n in
  let! b := rd_l sk o 4 in let! nl := bytes_to_ull b in
  Ok (mkBds stack (N.to_nat so) lv au kp ths rt nl, o + 4).

(** xmss_core_fast.c:80-133 xmssmt_deserialize_state, observed *)
Definition xmssmt_deserialize_state_l (p : xmss_params) (sk : bytes) : leak (list bds_state * bytes) :=
  if! p_d p =? 0 then UB else
  let! (ss, o) := lforN (nstates p) 0 (fun _ '(l, o) =>
      let! (s, o) := load_state_l p sk o in Ok (l ++ [s], o)) ([], index_bytes p + 4 * p_n p) in
  let! ws := rd_l sk o ((p_d p - 1) * wots_sig_bytes p) in
  Ok (ss, ws).

(** xmss_core_fast.c:38-78 xmssmt_serialize_state, observed *)
Definition xmssmt_serialize_state_l (p : xmss_params) (sk : bytes) (ss : list bds_state) (ws : bytes) : leak bytes :=
  wr_l sk (index_bytes p + 4 * p_n p) (concat (map (store_state p) ss) ++ ws).

(** xmss_core_fast.c:195-207 treehash_minheight_on_stack, observed *)
Definition treehash_minheight_on_stack_l (p : xmss_params) (s : bds_state) (t : treehash_inst) : leak N :=
  lforN (th_stackusage t) 0 (fun i r =>
    if! st_stackoffset s <=? i then UB else
    let! l := rdc_l (st_stacklevels s) (st_stackoffset s - i - 1) in
    if! (l <? r)%N then Ok l else Ok r) (f_tree_height p).

(** xmss_core_fast.c:259-269 = 412-422 place_node, observed *)
Definition place_node_l (p : xmss_params) (s : bds_state) (i : N) (nodeh : nat) (x : bytes) : leak bds_state :=
  let n := p_n p in
  let h := tree_height p in
  if! 32 <=? nodeh then UB else
  let q := N.shiftr i (N.of_nat nodeh) in
  if! (q =? 1)%N then
    let! au := wr_l (st_auth s) (nodeh * n) x in Ok (set_auth s au)
  else if! (nodeh <? h - bds_k p) && (q =? 3)%N then
    let! t := rdc_l (st_treehash s) nodeh in
    let! nd := wr_l (th_node t) 0 x in
    let! ths := wrc_l (st_treehash s) nodeh (mkTh (th_h t) (th_next_idx t) (th_stackusage t) (th_completed t) nd) in
    Ok (set_treehash s ths)
  else if! (h - bds_k p <=? nodeh) then
    if! (h <=? nodeh) || (q <? 3)%N then UB else
    let! b := shl1_int (h - 1 - nodeh) in
    let! rt := wr_l (st_retain s) ((N.to_nat b + nodeh - h + N.to_nat (N.shiftr (q - 3) 1)) * n) x in
    Ok (set_retain s rt)
  else Ok s.

(** xmss_core_fast.c:257-275 treehash_init_while, observed *)
Fixpoint treehash_init_while_l (p : xmss_params) (fuel : nat) (idx i : N) (pub_seed : bytes)
    (stack : bytes) (levels : list nat) (off : nat) (s : bds_state) (node_addr : addr)
  : leak (bytes * list nat * nat * bds_state * addr) :=
  let n := p_n p in
  if! off <=? 1 then Ok (stack, levels, off, s, node_addr) else
  let! l1 := rdc_l levels (off - 1) in
  let! l2 := rdc_l levels (off - 2) in
  if! negb (l1 =? l2) then Ok (stack, levels, off, s, node_addr) else
  match fuel with
  | O => NoFuel
  | S f =>
      let! x := rd_l stack ((off - 1) * n) n in
      let! s := place_node_l p s i l1 x in
      let node_addr := set_tree_height node_addr (N.of_nat l1) in
      let node_addr := set_tree_index node_addr (N.shiftr idx (N.of_nat (l1 + 1))) in
      let! inp := rd_l stack ((off - 2) * n) (2 * n) in
      let! (o, node_addr) := thash_h_l p inp pub_seed node_addr in
      let! stack := wr_l stack ((off - 2) * n) o in
      let! levels := wrc_l levels (off - 2) (l2 + 1) in
      treehash_init_while_l p f idx i pub_seed stack levels (off - 1) s node_addr
  end.

(** xmss_core_fast.c:214-282 treehash_init, observed *)
Definition treehash_init_l (p : xmss_params) (height : nat) (s : bds_state) (sk_seed pub_seed : bytes)
    (subtree : addr) : leak (bytes * bds_state) :=
  let n := p_n p in
  let ots_addr := set_type (copy_subtree_addr addr_zero subtree) 0 in
  let ltree_addr := set_type (copy_subtree_addr addr_zero subtree) 1 in
  let node_addr := set_type (copy_subtree_addr addr_zero subtree) 2 in
  let stack := uninit ((height + 1) * n) in
  let levels := uninit_nat (height + 1) in
  let! lastnode := shl1_int height in
  let! thc := th_count p in
  let! ths := lforN thc 0 (fun i l =>
    let! t := rdc_l l i in
    wrc_l l i (mkTh i (th_next_idx t) 0 1 (th_node t))) (st_treehash s) in
  let s := set_treehash s ths in
  let! (stack, _, _, s, _, _, _) :=
    lforN (N.to_nat lastnode) 0 (fun i '(stack, levels, off, s, ltree_addr, ots_addr, node_addr) =>
      let idx := N.of_nat i in
      let ltree_addr := set_ltree_addr ltree_addr idx in
      let ots_addr := set_ots_addr ots_addr idx in
      let! (leaf, ltree_addr, ots_addr) := gen_leaf_wots_l p sk_seed pub_seed ltree_addr ots_addr in
      let! stack := wr_l stack (off * n) leaf in
      let! levels := wrc_l levels off 0 in
      let off := off + 1 in
      let! s := (if! (0 <? thc) && (i =? 3) then
                   let! x := rd_l stack (off * n) n in
                   let! t := rdc_l (st_treehash s) 0 in
                   let! nd := wr_l (th_node t) 0 x in
                   let! ths := wrc_l (st_treehash s) 0 (mkTh (th_h t) (th_next_idx t) (th_stackusage t) (th_completed t) nd) in
                   Ok (set_treehash s ths)
                 else Ok s) in
      let! (stack, levels, off, s, node_addr) :=
        treehash_init_while_l p off idx idx pub_seed stack levels off s node_addr in
      Ok (stack, levels, off, s, ltree_addr, ots_addr, node_addr))
      (stack, levels, 0, s, ltree_addr, ots_addr, node_addr) in
  let! root := rd_l stack 0 n in
  Ok (root, s).

(** xmss_core_fast.c:308-317 treehash_update_while, observed *)
Fixpoint treehash_update_while_l (p : xmss_params) (usage : nat) (next_idx : N) (pub_seed : bytes)
    (s : bds_state) (off : nat) (node : bytes) (nodeheight : nat) (node_addr : addr)
  : leak (bytes * nat * nat * nat) :=
  let n := p_n p in
  match usage with
  | O => Ok (node, nodeheight, 0, off)
  | S u =>
      if! off =? 0 then UB else
      let! l := rdc_l (st_stacklevels s) (off - 1) in
      if! (l =? N.of_nat nodeheight)%N then
        let! lft := rd_l (st_stack s) ((off - 1) * n) n in
        let node_addr := set_tree_height node_addr (N.of_nat nodeheight) in
        let node_addr := set_tree_index node_addr (N.shiftr next_idx (N.of_nat (nodeheight + 1))) in
        let! (o, node_addr) := thash_h_l p (lft ++ node) pub_seed node_addr in
        treehash_update_while_l p u next_idx pub_seed s (off - 1) o (nodeheight + 1) node_addr
      else Ok (node, nodeheight, S u, off)
  end.

(** xmss_core_fast.c:284-329 treehash_update, observed *)
Definition treehash_update_l (p : xmss_params) (j : nat) (s : bds_state) (sk_seed pub_seed : bytes)
    (subtree : addr) : leak bds_state :=
  let n := p_n p in
  let! t := rdc_l (st_treehash s) j in
  let ots_addr := set_type (copy_subtree_addr addr_zero subtree) 0 in
  let ltree_addr := set_type (copy_subtree_addr addr_zero subtree) 1 in
  let node_addr := set_type (copy_subtree_addr addr_zero subtree) 2 in
  let ltree_addr := set_ltree_addr ltree_addr (th_next_idx t) in
  let ots_addr := set_ots_addr ots_addr (th_next_idx t) in
  let! (leaf, _, _) := gen_leaf_wots_l p sk_seed pub_seed ltree_addr ots_addr in
  let! (node, nodeheight, usage, off) :=
    treehash_update_while_l p (th_stackusage t) (th_next_idx t) pub_seed s (st_stackoffset s) leaf 0 node_addr in
  let s := set_stackoffset s off in
  if! nodeheight =? th_h t then
    let! nd := wr_l (th_node t) 0 node in
    let! ths := wrc_l (st_treehash s) j (mkTh (th_h t) (th_next_idx t) usage 1 nd) in
    Ok (set_treehash s ths)
  else
    let! stack := wr_l (st_stack s) (off * n) node in
    let! lv := wrc_l (st_stacklevels s) off (u8 (N.of_nat nodeheight)) in
    let! ths := wrc_l (st_treehash s) j
                  (mkTh (th_h t) (u64 (th_next_idx t + 1)) ((usage + 1) mod 256) (th_completed t) (th_node t)) in
    Ok (mkBds stack (off + 1) lv (st_auth s) (st_keep s) ths (st_retain s) (st_next_leaf s)).

(** xmss_core_fast.c:346-362 select_treehash, observed *)
Definition select_treehash_l (p : xmss_params) (s : bds_state) : leak (option nat) :=
  let! thc := th_count p in
  let! (level, _) :=
    lforN thc 0 (fun i '(level, l_min) =>
      let! t := rdc_l (st_treehash s) i in
      let! low := (if! negb (th_completed t =? 0)%N then Ok (f_tree_height p)
                   else if! th_stackusage t =? 0 then Ok (N.of_nat i)
                   else treehash_minheight_on_stack_l p s t) in
      if! (low <? l_min)%N then Ok (Some i, low) else Ok (level, l_min))
      (None, f_tree_height p) in
  Ok level.

(** xmss_core_fast.c:335-370 bds_treehash_update, observed *)
Definition bds_treehash_update_l (p : xmss_params) (s : bds_state) (updates : N) (sk_seed pub_seed : bytes)
    (subtree : addr) : leak (bds_state * N) :=
  let! (s, used, _) :=
    lloopN updates (fun '(s, used) =>
      let! sel := select_treehash_l p s in
      let! _ := mkLeak (Ok tt) [Branch (match sel with None => true | Some _ => false end)] in   (* line 363 *)
      match sel with
      | None => Ok ((s, used), true)
      | Some j => let! s := treehash_update_l p j s sk_seed pub_seed subtree in
                  Ok ((s, (used + 1)%N), false)
      end) (s, 0%N) in
  Ok (s, via_char (updates - used)).

(** xmss_core_fast.c:410-429 bds_state_update_while, observed *)
Fixpoint bds_state_update_while_l (p : xmss_params) (fuel : nat) (idx : N) (pub_seed : bytes)
    (s : bds_state) (node_addr : addr) : leak (bds_state * addr) :=
  let n := p_n p in
  let off := st_stackoffset s in
  if! off <=? 1 then Ok (s, node_addr) else
  let! l1 := rdc_l (st_stacklevels s) (off - 1) in
  let! l2 := rdc_l (st_stacklevels s) (off - 2) in
  if! negb (l1 =? l2)%N then Ok (s, node_addr) else
  match fuel with
  | O => NoFuel
  | S f =>
      let nodeh := N.to_nat l1 in
      let! x := rd_l (st_stack s) ((off - 1) * n) n in
      let! s := place_node_l p s idx nodeh x in
      let node_addr := set_tree_height node_addr l1 in
      if! 31 <=? nodeh then UB else
      let node_addr := set_tree_index node_addr (N.shiftr idx (l1 + 1)) in
      let! inp := rd_l (st_stack s) ((off - 2) * n) (2 * n) in
      let! (o, node_addr) := thash_h_l p inp pub_seed node_addr in
      let! stack := wr_l (st_stack s) ((off - 2) * n) o in
      let! lv := wrc_l (st_stacklevels s) (off - 2) (u8 (l2 + 1)) in
      bds_state_update_while_l p f idx pub_seed
        (set_stackoffset (set_stacklevels (set_stack s stack) lv) (off - 1)) node_addr
  end.

(** xmss_core_fast.c:376-432 bds_state_update, observed *)
Definition bds_state_update_l (p : xmss_params) (s : bds_state) (sk_seed pub_seed : bytes) (subtree : addr)
  : leak bds_state :=
  let n := p_n p in
  let idx := st_next_leaf s in
  let! two_h := shl1_int (tree_height p) in
  let! thc := th_count p in
  if! (idx =? two_h)%N then Ok s else
  let ots_addr := set_type (copy_subtree_addr addr_zero subtree) 0 in
  let ltree_addr := set_type (copy_subtree_addr addr_zero subtree) 1 in
  let node_addr := set_type (copy_subtree_addr addr_zero subtree) 2 in
  let ots_addr := set_ots_addr ots_addr idx in
  let ltree_addr := set_ltree_addr ltree_addr idx in
  let! (leaf, _, _) := gen_leaf_wots_l p sk_seed pub_seed ltree_addr ots_addr in
  let off := st_stackoffset s in
  let! stack := wr_l (st_stack s) (off * n) leaf in
  let! lv := wrc_l (st_stacklevels s) off 0%N in
  let off := off + 1 in
  let s := set_stackoffset (set_stacklevels (set_stack s stack) lv) off in
  let! s := (if! (0 <? thc) && (idx =? 3)%N then
               let! x := rd_l (st_stack s) (off * n) n in
               let! t := rdc_l (st_treehash s) 0 in
               let! nd := wr_l (th_node t) 0 x in
               let! ths := wrc_l (st_treehash s) 0 (mkTh (th_h t) (th_next_idx t) (th_stackusage t) (th_completed t) nd) in
               Ok (set_treehash s ths)
             else Ok s) in
  let! (s, _) := bds_state_update_while_l p off idx pub_seed s node_addr in
  Ok (set_next_leaf s (u32 (st_next_leaf s + 1))).

(** xmss_core_fast.c:439-508 bds_round, observed *)
Definition bds_round_l (p : xmss_params) (s : bds_state) (leaf_idx : N) (sk_seed pub_seed : bytes)
    (subtree : addr) : leak bds_state :=
  let n := p_n p in
  let h := tree_height p in
  let! thc := th_count p in
  let ots_addr := set_type (copy_subtree_addr addr_zero subtree) 0 in
  let ltree_addr := set_type (copy_subtree_addr addr_zero subtree) 1 in
  let node_addr := set_type (copy_subtree_addr addr_zero subtree) 2 in
  let tau := find_tau h 0 leaf_idx in
  let! buf := (if! 0 <? tau then
                 let! x := rd_l (st_auth s) ((tau - 1) * n) n in
                 let! y := rd_l (st_keep s) (((tau - 1) / 2) * n) n in
                 Ok (x ++ y)
               else Ok (uninit (2 * n))) in
  let! s := (if! negb (N.testbit leaf_idx (N.of_nat (tau + 1))) && (tau <? h - 1) then
               let! x := rd_l (st_auth s) (tau * n) n in
               let! kp := wr_l (st_keep s) ((tau / 2) * n) x in
               Ok (set_keep s kp)
             else Ok s) in
  if! tau =? 0 then
    let ltree_addr := set_ltree_addr ltree_addr leaf_idx in
    let ots_addr := set_ots_addr ots_addr leaf_idx in
    let! (leaf, _, _) := gen_leaf_wots_l p sk_seed pub_seed ltree_addr ots_addr in
    let! au := wr_l (st_auth s) 0 leaf in
    Ok (set_auth s au)
  else
    let node_addr := set_tree_height node_addr (N.of_nat (tau - 1)) in
    let node_addr := set_tree_index node_addr (N.shiftr leaf_idx (N.of_nat tau)) in
    let! (o, _) := thash_h_l p buf pub_seed node_addr in
    let! au := wr_l (st_auth s) (tau * n) o in
    let! au := lforN tau 0 (fun i au =>
      if! i <? thc then
        let! t := rdc_l (st_treehash s) i in
        let! x := rd_l (th_node t) 0 n in
        wr_l au (i * n) x
      else
        let! b := shl1_int (h - 1 - i) in
        let offset := N.to_nat b + i - h in
        let rowidx := N.to_nat (u32 (N.shiftr (N.shiftr leaf_idx (N.of_nat i) - 1) 1)) in
        let! x := rd_l (st_retain s) ((offset + rowidx) * n) n in
        wr_l au (i * n) x) au in
    let s := set_auth s au in
    let! lim := shl1_uint h in
    let! ths := lforN (Nat.min tau thc) 0 (fun i ths =>
      let! b := shl1_int i in
      let startidx := u32 (leaf_idx + 1 + 3 * b)%N in
      if! (startidx <? lim)%N then
        let! t := rdc_l ths i in
        wrc_l ths i (mkTh i startidx 0 0 (th_node t))
      else Ok ths) (st_treehash s) in
    Ok (set_treehash s ths).

(** xmss_core_fast.c:538-575 fast_xmss_core_keypair, observed *)
Definition fast_xmss_core_keypair_l (p : xmss_params) (pk sk : bytes) (r : nat -> N) : leak (Z * bytes * bytes) :=
  let n := p_n p in
  let ib := index_bytes p in
  let! (ss, ws) := xmssmt_deserialize_state_l p sk in
  let! s := rdc_l ss 0 in
  let s := set_next_leaf (set_stackoffset s 0) 0%N in
  let! sk := wr_l sk 0 (repeat 0%N 4) in
  let! sk := wr_l sk ib (rand_take r 0 (2 * n)) in
  let! sk := wr_l sk (ib + 3 * n) (rand_take r (2 * n) n) in
  let! ps := rd_l sk (ib + 3 * n) n in
  let! pk := wr_l pk n ps in
  let! sk_seed := rd_l sk ib n in
  let! (root, s) := treehash_init_l p (tree_height p) s sk_seed ps addr_zero in
  let! pk := wr_l pk 0 root in
  let! sk := wr_l sk (ib + 2 * n) root in
  let! ss := wrc_l ss 0 s in
  let! sk := xmssmt_serialize_state_l p sk ss ws in
  Ok (0%Z, pk, sk).

(** xmss_core_fast.c:584-720 fast_sign_body, observed *)
Definition fast_sign_body_l (p : xmss_params) (idx : N) (sk : bytes) (ss : list bds_state) (ws : bytes)
    (sm m : bytes) : leak sign_out :=
  let n := p_n p in
  let ib := index_bytes p in
  let! sk_seed := rd_l sk ib n in
  let! sk_prf := rd_l sk (ib + n) n in
  let! pub_seed := rd_l sk (ib + 3 * n) n in
  let! s := rdc_l ss 0 in
  let! sk := wr_l sk 0 (ull_to_bytes 4 (idx + 1)) in
  let! R := prf_l p (ull_to_bytes 32 idx) sk_prf in
  let! sm := wr_l sm (sig_bytes p) m in
  let! pub_root := rd_l sk (ib + 2 * n) n in
  if! sig_bytes p <? padding_len p + 3 * n then UB else
  let! (msg_h, sm) := hash_message_l p (fun _ => silent (Ok R)) pub_root idx sm
                        (sig_bytes p - padding_len p - 3 * n) (length m) in
  let! sm := wr_l sm 0 (ull_to_bytes 4 idx) in
  let! sm := wr_l sm 4 R in
  let ots_addr := set_ots_addr (set_type addr_zero 0) idx in
  let! (sig, ots_addr) := wots_sign_l p msg_h sk_seed pub_seed ots_addr in
  let o := 4 + n in
  let! sm := wr_l sm o sig in
  let o := o + wots_sig_bytes p in
  let! au := rd_l (st_auth s) 0 (tree_height p * n) in
  let! sm := wr_l sm o au in
  let! lim := shl1_uint (tree_height p) in
  let! s :=
    (if! (idx <? lim - 1)%N then
       let! s := bds_round_l p s idx sk_seed pub_seed ots_addr in
       let! (s, _) := bds_treehash_update_l p s (N.shiftr (f_tree_height p - f_bds_k p) 1) sk_seed pub_seed ots_addr in
       Ok s
     else Ok s) in
  let o := o + tree_height p * n in
  let! sm := wr_l sm o m in
  let! ss := wrc_l ss 0 s in
  let! sk := xmssmt_serialize_state_l p sk ss ws in
  Ok (mkSign 0 sk sm (o + length m)).

(** xmss_core_fast.c:584-720 fast_xmss_core_sign, observed *)
Definition fast_xmss_core_sign_l (p : xmss_params) (sk sm : bytes) (smlen : nat) (m : bytes) : leak sign_out :=
  let ib := index_bytes p in
  let! (ss, ws) := xmssmt_deserialize_state_l p sk in
  let! x := rd_l sk 0 4 in
  let! idx := bytes_to_ull x in
  let! lim := shl1_ull (full_height p) in
  let last := (lim - 1)%N in
  if! (last <=? idx)%N then
    let! sk := wr_l sk 0 (repeat 255%N ib) in
    let! sk := wr_l sk ib (repeat 0%N (sk_bytes p - ib)) in
    if! (last <? idx)%N then Ok (mkSign (-2) sk sm smlen)
    else if! (full_height p =? 64) && (idx =? last)%N then Ok (mkSign (-2) sk sm smlen)
    else
      let! (zs, ws) := xmssmt_deserialize_state_l p sk in
      fast_sign_body_l p idx sk (reload_all zs ss) ws sm m
  else fast_sign_body_l p idx sk ss ws sm m.

(** xmss_core_fast.c:727-776 fast_xmssmt_core_keypair, observed *)
Definition fast_xmssmt_core_keypair_l (p : xmss_params) (pk sk : bytes) (r : nat -> N) : leak (Z * bytes * bytes) :=
  let n := p_n p in
  let ib := index_bytes p in
  let! (ss, ws) := xmssmt_deserialize_state_l p sk in
  let ss := map (fun s => set_next_leaf (set_stackoffset s 0) 0%N) ss in
  let! sk := wr_l sk 0 (repeat 0%N ib) in
  let! sk := wr_l sk ib (rand_take r 0 (2 * n)) in
  let! sk := wr_l sk (ib + 3 * n) (rand_take r (2 * n) n) in
  let! ps := rd_l sk (ib + 3 * n) n in
  let! pk := wr_l pk n ps in
  let! sk_seed := rd_l sk ib n in
  let! (pk, ss, ws, a) :=
    lforN (p_d p - 1) 0 (fun i '(pk, ss, ws, a) =>
      let! s := rdc_l ss i in
      let! (root, s) := treehash_init_l p (tree_height p) s sk_seed ps a in
      let! pk := wr_l pk 0 root in
      let! ss := wrc_l ss i s in
      let a := set_layer_addr a (N.of_nat (i + 1)) in
      let! (sig, a) := wots_sign_l p root sk_seed ps a in
      let! ws := wr_l ws (i * wots_sig_bytes p) sig in
      Ok (pk, ss, ws, a)) (pk, ss, ws, set_layer_addr addr_zero 0) in
  let! s := rdc_l ss (p_d p - 1) in
  let! (root, s) := treehash_init_l p (tree_height p) s sk_seed ps a in
  let! pk := wr_l pk 0 root in
  let! ss := wrc_l ss (p_d p - 1) s in
  let! sk := wr_l sk (ib + 2 * n) root in
  let! sk := xmssmt_serialize_state_l p sk ss ws in
  Ok (0%Z, pk, sk).

(** xmss_core_fast.c:161-193 deep_state_swap, observed *)
Definition deep_state_swap_l (ss : list bds_state) (a b : nat) : leak (list bds_state) :=
  let! x := rdc_l ss a in
  let! y := rdc_l ss b in
  let! ss := wrc_l ss a y in
  wrc_l ss b x.

(** xmss_core_fast.c:941-982 mt_layer_step, observed *)
Definition mt_layer_step_l (p : xmss_params) (idx : N) (sk_seed pub_seed : bytes) (i : nat) (v : mt_vars) : leak mt_vars :=
  let h := tree_height p in
  let d := p_d p in
  let! b := shl1_ull ((i + 1) * h) in
  let! full := shl1_ull (full_height p) in
  let! two_h := shl1_int h in
  if! negb (N.land (idx + 1) (b - 1) =? 0)%N then
    let! x := shr_ull idx (h * i) in
    let idx_leaf := u32 (N.land x (two_h - 1)) in
    let! idx_tree := shr_ull idx (h * (i + 1)) in
    let a := set_layer_addr (mv_addr v) (N.of_nat i) in
    let a := set_tree_addr a idx_tree in
    let! s := rdc_l (mv_ss v) i in
    let! s := (if! (Z.of_nat i =? mv_swap v + 1)%Z then bds_round_l p s idx_leaf sk_seed pub_seed a else Ok s) in
    let! (s, updates) := bds_treehash_update_l p s (mv_updates v) sk_seed pub_seed a in
    let! ss := wrc_l (mv_ss v) i s in
    let a := set_tree_addr a (idx_tree + 1) in
    let! lim := shl1_ull (full_height p - h * i) in
    if! (u64 ((1 + idx_tree) * two_h + idx_leaf) <? lim)%N then
      if! (0 <? i) && (0 <? updates)%N then
        let! nx := rdc_l ss (d + i) in
        if! (st_next_leaf nx <? full)%N then
          let! nx := bds_state_update_l p nx sk_seed pub_seed a in
          let! ss := wrc_l ss (d + i) nx in
          Ok (mkMt ss (mv_ws v) a (mv_ots v) (u32 (updates + (2 ^ 32 - 1))) (mv_swap v))
        else Ok (mkMt ss (mv_ws v) a (mv_ots v) updates (mv_swap v))
      else Ok (mkMt ss (mv_ws v) a (mv_ots v) updates (mv_swap v))
    else Ok (mkMt ss (mv_ws v) a (mv_ots v) updates (mv_swap v))
  else if! (idx <? full - 1)%N then
    let! ss := deep_state_swap_l (mv_ss v) (d + i) i in
    let! t := shr_ull (idx + 1) ((i + 2) * h) in
    let! l := shr_ull idx ((i + 1) * h) in
    let ots := set_layer_addr (mv_ots v) (N.of_nat (i + 1)) in
    let ots := set_tree_addr ots t in
    let ots := set_ots_addr ots (N.land (l + 1) (two_h - 1)) in
    let! s := rdc_l ss i in
    let! (sig, ots) := wots_sign_l p (st_stack s) sk_seed pub_seed ots in
    let! ws := wr_l (mv_ws v) (i * wots_sig_bytes p) sig in
    let! nx := rdc_l ss (d + i) in
    let! ss := wrc_l ss (d + i) (set_next_leaf (set_stackoffset nx 0) 0%N) in
    let ths := map (fun t => mkTh (th_h t) (th_next_idx t) (th_stackusage t) 1 (th_node t)) (st_treehash s) in
    let! ss := wrc_l ss i (set_treehash s ths) in
    Ok (mkMt ss ws (mv_addr v) ots (u32 (mv_updates v + (2 ^ 32 - 1))) (Z.of_nat i))
  else Ok v.

(** xmss_core_fast.c:785-988 fast_mt_sign_body, observed *)
Definition fast_mt_sign_body_l (p : xmss_params) (idx : N) (sk : bytes) (ss : list bds_state) (ws : bytes)
    (sm m : bytes) : leak sign_out :=
  let n := p_n p in
  let ib := index_bytes p in
  let h := tree_height p in
  let! sk_seed := rd_l sk ib n in
  let! sk_prf := rd_l sk (ib + n) n in
  let! pub_seed := rd_l sk (ib + 3 * n) n in
  let! sk := wr_l sk 0 (ull_to_bytes ib (u64 (idx + 1))) in
  let! R := prf_l p (ull_to_bytes 32 idx) sk_prf in
  let! sm := wr_l sm (sig_bytes p) m in
  let! pub_root := rd_l sk (ib + 2 * n) n in
  if! sig_bytes p <? padding_len p + 3 * n then UB else
  let! (msg_h, sm) := hash_message_l p (fun _ => silent (Ok R)) pub_root idx sm
                        (sig_bytes p - padding_len p - 3 * n) (length m) in
  let! sm := wr_l sm 0 (ull_to_bytes ib idx) in
  let! sm := wr_l sm ib R in
  let ots_addr := set_type addr_zero 0 in
  let! idx_tree := shr_ull idx h in
  let! two_h := shl1_int h in
  let idx_leaf := u32 (N.land idx (two_h - 1)) in
  let ots_addr := set_layer_addr ots_addr 0 in
  let ots_addr := set_tree_addr ots_addr idx_tree in
  let ots_addr := set_ots_addr ots_addr idx_leaf in
  let! (sig, ots_addr) := wots_sign_l p msg_h sk_seed pub_seed ots_addr in
  let o := ib + n in
  let! sm := wr_l sm o sig in
  let o := o + wots_sig_bytes p in
  let! s0 := rdc_l ss 0 in
  let! au := rd_l (st_auth s0) 0 (h * n) in
  let! sm := wr_l sm o au in
  let o := o + h * n in
  let! (sm, o) := lforN (p_d p - 1) 1 (fun i '(sm, o) =>
    let! sg := rd_l ws ((i - 1) * wots_sig_bytes p) (wots_sig_bytes p) in
    let! sm := wr_l sm o sg in
    let o := o + wots_sig_bytes p in
    let! si := rdc_l ss i in
    let! au := rd_l (st_auth si) 0 (h * n) in
    let! sm := wr_l sm o au in
    Ok (sm, o + h * n)) (sm, o) in
  let a := set_tree_addr addr_zero (idx_tree + 1) in
  let! full := shl1_ull (full_height p) in
  let! ss := (if! (u64 ((1 + idx_tree) * two_h + idx_leaf) <? full)%N then
                let! nx := rdc_l ss (p_d p) in
                let! nx := bds_state_update_l p nx sk_seed pub_seed a in
                wrc_l ss (p_d p) nx
              else Ok ss) in
  let! v := lforN (p_d p) 0 (mt_layer_step_l p idx sk_seed pub_seed)
              (mkMt ss ws a ots_addr (N.shiftr (f_tree_height p - f_bds_k p) 1) (-1)) in
  let! sm := wr_l sm o m in
  let! sk := xmssmt_serialize_state_l p sk (mv_ss v) (mv_ws v) in
  Ok (mkSign 0 sk sm (o + length m)).

(** xmss_core_fast.c:785-858 fast_xmssmt_core_sign, observed *)
Definition fast_xmssmt_core_sign_l (p : xmss_params) (sk sm : bytes) (smlen : nat) (m : bytes) : leak sign_out :=
  let ib := index_bytes p in
  let! (ss, ws) := xmssmt_deserialize_state_l p sk in
  let! x := rd_l sk 0 ib in
  let! idx := bytes_to_ull x in
  let! lim := shl1_ull (full_height p) in
  let last := (lim - 1)%N in
  if! (last <=? idx)%N then
    let! sk := wr_l sk 0 (repeat 255%N ib) in
    let! sk := wr_l sk ib (repeat 0%N (sk_bytes p - ib)) in
    if! (last <? idx)%N then Ok (mkSign (-2) sk sm smlen)
    else if! (full_height p =? 64) && (idx =? last)%N then Ok (mkSign (-2) sk sm smlen)
    else
      let! (zs, ws) := xmssmt_deserialize_state_l p sk in
      fast_mt_sign_body_l p idx sk (reload_all zs ss) ws sm m
  else fast_mt_sign_body_l p idx sk ss ws sm m.

(** The API calls (xmss.c) with the fast core, observed *)
Definition fast_keypair_seen (mt : bool) :=
  keypair_wrapper_l (if mt then xmssmt_parse_oid else xmss_parse_oid) (c_sk_bytes fast_core)
    (if mt then fast_xmssmt_core_keypair_l else fast_xmss_core_keypair_l).
Definition fast_sign_seen (mt : bool) :=
  sign_wrapper_l (if mt then xmssmt_parse_oid else xmss_parse_oid) (c_sk_bytes fast_core)
    (if mt then fast_xmssmt_core_sign_l else fast_xmss_core_sign_l).

End WithEnv.
