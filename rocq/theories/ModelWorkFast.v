(** How many times a call runs the hash function: the fast core.

    The functions of ModelCoreFast and ModelXmss that hash, directly or through others, with the
    counter of ModelWork: one for each call of core_hash (hash.c:25-57).  Nothing else is
    changed; ProofWorkFast shows that forgetting the counter gives back the functions of the
    model. *)
From Verif Require Import Base ModelUtils ModelParams ModelHash ModelWots ModelCommons ModelCore ModelCoreFast ModelXmss ModelCost ModelWork.

Section WithEnv.
Context {E : Env}.

(** xmss_core_fast.c:257-275 treehash_init_while, counted *)
Fixpoint treehash_init_while_w (p : xmss_params) (fuel : nat) (idx i : N) (pub_seed : bytes)
    (stack : bytes) (levels : list nat) (off : nat) (s : bds_state) (node_addr : addr)
  : cost (bytes * list nat * nat * bds_state * addr) :=
  let n := p_n p in
  if off <=? 1 then Ok (stack, levels, off, s, node_addr) else
  let+ l1 := rdc levels (off - 1) in
  let+ l2 := rdc levels (off - 2) in
  if negb (l1 =? l2) then Ok (stack, levels, off, s, node_addr) else
  match fuel with
  | O => NoFuel
  | S f =>
      let+ x := rd stack ((off - 1) * n) n in
      let+ s := place_node p s i l1 x in
      let node_addr := set_tree_height node_addr (N.of_nat l1) in
      let node_addr := set_tree_index node_addr (N.shiftr idx (N.of_nat (l1 + 1))) in
      let+ inp := rd stack ((off - 2) * n) (2 * n) in
      let+ (o, node_addr) := thash_h_w p inp pub_seed node_addr in
      let+ stack := wr stack ((off - 2) * n) o in
      let+ levels := wrc levels (off - 2) (l2 + 1) in
      treehash_init_while_w p f idx i pub_seed stack levels (off - 1) s node_addr
  end.

(** xmss_core_fast.c:214-282 treehash_init, counted *)
Definition treehash_init_w (p : xmss_params) (height : nat) (s : bds_state) (sk_seed pub_seed : bytes)
    (subtree : addr) : cost (bytes * bds_state) :=
  let n := p_n p in
  let ots_addr := set_type (copy_subtree_addr addr_zero subtree) 0 in
  let ltree_addr := set_type (copy_subtree_addr addr_zero subtree) 1 in
  let node_addr := set_type (copy_subtree_addr addr_zero subtree) 2 in
  let stack := uninit ((height + 1) * n) in
  let levels := uninit_nat (height + 1) in
  let+ lastnode := shl1_int height in
  let+ thc := th_count p in
  let+ ths := cforN thc 0 (fun i l =>
    let+ t := rdc l i in
    wrc l i (mkTh i (th_next_idx t) 0 1 (th_node t))) (st_treehash s) in
  let s := set_treehash s ths in
  let+ (stack, _, _, s, _, _, _) :=
    cforN (N.to_nat lastnode) 0 (fun i '(stack, levels, off, s, ltree_addr, ots_addr, node_addr) =>
      let idx := N.of_nat i in
      let ltree_addr := set_ltree_addr ltree_addr idx in
      let ots_addr := set_ots_addr ots_addr idx in
      let+ (leaf, ltree_addr, ots_addr) := gen_leaf_wots_w p sk_seed pub_seed ltree_addr ots_addr in
      let+ stack := wr stack (off * n) leaf in
      let+ levels := wrc levels off 0 in
      let off := off + 1 in
      let+ s := (if (0 <? thc) && (i =? 3) then
                   let+ x := rd stack (off * n) n in
                   let+ t := rdc (st_treehash s) 0 in
                   let+ nd := wr (th_node t) 0 x in
                   let+ ths := wrc (st_treehash s) 0 (mkTh (th_h t) (th_next_idx t) (th_stackusage t) (th_completed t) nd) in
                   Ok (set_treehash s ths)
                 else Ok s) in
      let+ (stack, levels, off, s, node_addr) :=
        treehash_init_while_w p off idx idx pub_seed stack levels off s node_addr in
      Ok (stack, levels, off, s, ltree_addr, ots_addr, node_addr))
      (stack, levels, 0, s, ltree_addr, ots_addr, node_addr) in
  let+ root := rd stack 0 n in
  Ok (root, s).

(** xmss_core_fast.c:308-317 treehash_update_while, counted *)
Fixpoint treehash_update_while_w (p : xmss_params) (usage : nat) (next_idx : N) (pub_seed : bytes)
    (s : bds_state) (off : nat) (node : bytes) (nodeheight : nat) (node_addr : addr)
  : cost (bytes * nat * nat * nat) :=
  let n := p_n p in
  match usage with
  | O => Ok (node, nodeheight, 0, off)
  | S u =>
      if off =? 0 then UB else
      let+ l := rdc (st_stacklevels s) (off - 1) in
      if (l =? N.of_nat nodeheight)%N then
        let+ lft := rd (st_stack s) ((off - 1) * n) n in
        let node_addr := set_tree_height node_addr (N.of_nat nodeheight) in
        let node_addr := set_tree_index node_addr (N.shiftr next_idx (N.of_nat (nodeheight + 1))) in
        let+ (o, node_addr) := thash_h_w p (lft ++ node) pub_seed node_addr in
        treehash_update_while_w p u next_idx pub_seed s (off - 1) o (nodeheight + 1) node_addr
      else Ok (node, nodeheight, S u, off)
  end.

(** xmss_core_fast.c:284-329 treehash_update, counted *)
Definition treehash_update_w (p : xmss_params) (j : nat) (s : bds_state) (sk_seed pub_seed : bytes)
    (subtree : addr) : cost bds_state :=
  let n := p_n p in
  let+ t := rdc (st_treehash s) j in
  let ots_addr := set_type (copy_subtree_addr addr_zero subtree) 0 in
  let ltree_addr := set_type (copy_subtree_addr addr_zero subtree) 1 in
  let node_addr := set_type (copy_subtree_addr addr_zero subtree) 2 in
  let ltree_addr := set_ltree_addr ltree_addr (th_next_idx t) in
  let ots_addr := set_ots_addr ots_addr (th_next_idx t) in
  let+ (leaf, _, _) := gen_leaf_wots_w p sk_seed pub_seed ltree_addr ots_addr in
  let+ (node, nodeheight, usage, off) :=
    treehash_update_while_w p (th_stackusage t) (th_next_idx t) pub_seed s (st_stackoffset s) leaf 0 node_addr in
  let s := set_stackoffset s off in
  if nodeheight =? th_h t then
    let+ nd := wr (th_node t) 0 node in
    let+ ths := wrc (st_treehash s) j (mkTh (th_h t) (th_next_idx t) usage 1 nd) in
    Ok (set_treehash s ths)
  else
    let+ stack := wr (st_stack s) (off * n) node in
    let+ lv := wrc (st_stacklevels s) off (u8 (N.of_nat nodeheight)) in
    let+ ths := wrc (st_treehash s) j
                  (mkTh (th_h t) (u64 (th_next_idx t + 1)) ((usage + 1) mod 256) (th_completed t) (th_node t)) in
    Ok (mkBds stack (off + 1) lv (st_auth s) (st_keep s) ths (st_retain s) (st_next_leaf s)).

(** xmss_core_fast.c:335-370 bds_treehash_update, counted *)
Definition bds_treehash_update_w (p : xmss_params) (s : bds_state) (updates : N) (sk_seed pub_seed : bytes)
    (subtree : addr) : cost (bds_state * N) :=
  let+ (s, used, _) :=
    cloopN updates (fun '(s, used) =>
      let+ sel := select_treehash p s in
      match sel with
      | None => Ok ((s, used), true)
      | Some j => let+ s := treehash_update_w p j s sk_seed pub_seed subtree in
                  Ok ((s, (used + 1)%N), false)
      end) (s, 0%N) in
  Ok (s, via_char (updates - used)).

(** xmss_core_fast.c:410-429 bds_state_update_while, counted *)
Fixpoint bds_state_update_while_w (p : xmss_params) (fuel : nat) (idx : N) (pub_seed : bytes)
    (s : bds_state) (node_addr : addr) : cost (bds_state * addr) :=
  let n := p_n p in
  let off := st_stackoffset s in
  if off <=? 1 then Ok (s, node_addr) else
  let+ l1 := rdc (st_stacklevels s) (off - 1) in
  let+ l2 := rdc (st_stacklevels s) (off - 2) in
  if negb (l1 =? l2)%N then Ok (s, node_addr) else
  match fuel with
  | O => NoFuel
  | S f =>
      let nodeh := N.to_nat l1 in
      let+ x := rd (st_stack s) ((off - 1) * n) n in
      let+ s := place_node p s idx nodeh x in
      let node_addr := set_tree_height node_addr l1 in
      if 31 <=? nodeh then UB else
      let node_addr := set_tree_index node_addr (N.shiftr idx (l1 + 1)) in
      let+ inp := rd (st_stack s) ((off - 2) * n) (2 * n) in
      let+ (o, node_addr) := thash_h_w p inp pub_seed node_addr in
      let+ stack := wr (st_stack s) ((off - 2) * n) o in
      let+ lv := wrc (st_stacklevels s) (off - 2) (u8 (l2 + 1)) in
      bds_state_update_while_w p f idx pub_seed
        (set_stackoffset (set_stacklevels (set_stack s stack) lv) (off - 1)) node_addr
  end.

(** xmss_core_fast.c:376-432 bds_state_update, counted *)
Definition bds_state_update_w (p : xmss_params) (s : bds_state) (sk_seed pub_seed : bytes) (subtree : addr)
  : cost bds_state :=
  let n := p_n p in
  let idx := st_next_leaf s in
  let+ two_h := shl1_int (tree_height p) in
  let+ thc := th_count p in
  if (idx =? two_h)%N then Ok s else
  let ots_addr := set_type (copy_subtree_addr addr_zero subtree) 0 in
  let ltree_addr := set_type (copy_subtree_addr addr_zero subtree) 1 in
  let node_addr := set_type (copy_subtree_addr addr_zero subtree) 2 in
  let ots_addr := set_ots_addr ots_addr idx in
  let ltree_addr := set_ltree_addr ltree_addr idx in
  let+ (leaf, _, _) := gen_leaf_wots_w p sk_seed pub_seed ltree_addr ots_addr in
  let off := st_stackoffset s in
  let+ stack := wr (st_stack s) (off * n) leaf in
  let+ lv := wrc (st_stacklevels s) off 0%N in
  let off := off + 1 in
  let s := set_stackoffset (set_stacklevels (set_stack s stack) lv) off in
  let+ s := (if (0 <? thc) && (idx =? 3)%N then
               let+ x := rd (st_stack s) (off * n) n in
               let+ t := rdc (st_treehash s) 0 in
               let+ nd := wr (th_node t) 0 x in
               let+ ths := wrc (st_treehash s) 0 (mkTh (th_h t) (th_next_idx t) (th_stackusage t) (th_completed t) nd) in
               Ok (set_treehash s ths)
             else Ok s) in
  let+ (s, _) := bds_state_update_while_w p off idx pub_seed s node_addr in
  Ok (set_next_leaf s (u32 (st_next_leaf s + 1))).

(** xmss_core_fast.c:439-508 bds_round, counted *)
Definition bds_round_w (p : xmss_params) (s : bds_state) (leaf_idx : N) (sk_seed pub_seed : bytes)
    (subtree : addr) : cost bds_state :=
  let n := p_n p in
  let h := tree_height p in
  let+ thc := th_count p in
  let ots_addr := set_type (copy_subtree_addr addr_zero subtree) 0 in
  let ltree_addr := set_type (copy_subtree_addr addr_zero subtree) 1 in
  let node_addr := set_type (copy_subtree_addr addr_zero subtree) 2 in
  let tau := find_tau h 0 leaf_idx in
  let+ buf := (if 0 <? tau then
                 let+ x := rd (st_auth s) ((tau - 1) * n) n in
                 let+ y := rd (st_keep s) (((tau - 1) / 2) * n) n in
                 Ok (x ++ y)
               else Ok (uninit (2 * n))) in
  let+ s := (if negb (N.testbit leaf_idx (N.of_nat (tau + 1))) && (tau <? h - 1) then
               let+ x := rd (st_auth s) (tau * n) n in
               let+ kp := wr (st_keep s) ((tau / 2) * n) x in
               Ok (set_keep s kp)
             else Ok s) in
  if tau =? 0 then
    let ltree_addr := set_ltree_addr ltree_addr leaf_idx in
    let ots_addr := set_ots_addr ots_addr leaf_idx in
    let+ (leaf, _, _) := gen_leaf_wots_w p sk_seed pub_seed ltree_addr ots_addr in
    let+ au := wr (st_auth s) 0 leaf in
    Ok (set_auth s au)
  else
    let node_addr := set_tree_height node_addr (N.of_nat (tau - 1)) in
    let node_addr := set_tree_index node_addr (N.shiftr leaf_idx (N.of_nat tau)) in
    let+ (o, _) := thash_h_w p buf pub_seed node_addr in
    let+ au := wr (st_auth s) (tau * n) o in
    let+ au := cforN tau 0 (fun i au =>
      if i <? thc then
        let+ t := rdc (st_treehash s) i in
        let+ x := rd (th_node t) 0 n in
        wr au (i * n) x
      else
        let+ b := shl1_int (h - 1 - i) in
        let offset := N.to_nat b + i - h in
        let rowidx := N.to_nat (u32 (N.shiftr (N.shiftr leaf_idx (N.of_nat i) - 1) 1)) in
        let+ x := rd (st_retain s) ((offset + rowidx) * n) n in
        wr au (i * n) x) au in
    let s := set_auth s au in
    let+ lim := shl1_uint h in
    let+ ths := cforN (Nat.min tau thc) 0 (fun i ths =>
      let+ b := shl1_int i in
      let startidx := u32 (leaf_idx + 1 + 3 * b)%N in
      if (startidx <? lim)%N then
        let+ t := rdc ths i in
        wrc ths i (mkTh i startidx 0 0 (th_node t))
      else Ok ths) (st_treehash s) in
    Ok (set_treehash s ths).

(** xmss_core_fast.c:538-575 fast_xmss_core_keypair, counted *)
Definition fast_xmss_core_keypair_w (p : xmss_params) (pk sk : bytes) (r : nat -> N) : cost (Z * bytes * bytes) :=
  let n := p_n p in
  let ib := index_bytes p in
  let+ (ss, ws) := xmssmt_deserialize_state p sk in
  let+ s := rdc ss 0 in
  let s := set_next_leaf (set_stackoffset s 0) 0%N in
  let+ sk := wr sk 0 (repeat 0%N 4) in
  let+ sk := wr sk ib (rand_take r 0 (2 * n)) in
  let+ sk := wr sk (ib + 3 * n) (rand_take r (2 * n) n) in
  let+ ps := rd sk (ib + 3 * n) n in
  let+ pk := wr pk n ps in
  let+ sk_seed := rd sk ib n in
  let+ (root, s) := treehash_init_w p (tree_height p) s sk_seed ps addr_zero in
  let+ pk := wr pk 0 root in
  let+ sk := wr sk (ib + 2 * n) root in
  let+ ss := wrc ss 0 s in
  let+ sk := xmssmt_serialize_state p sk ss ws in
  Ok (0%Z, pk, sk).

(** xmss_core_fast.c:584-720 fast_sign_body, counted *)
Definition fast_sign_body_w (p : xmss_params) (idx : N) (sk : bytes) (ss : list bds_state) (ws : bytes)
    (sm m : bytes) : cost sign_out :=
  let n := p_n p in
  let ib := index_bytes p in
  let+ sk_seed := rd sk ib n in
  let+ sk_prf := rd sk (ib + n) n in
  let+ pub_seed := rd sk (ib + 3 * n) n in
  let+ s := rdc ss 0 in
  let+ sk := wr sk 0 (ull_to_bytes 4 (idx + 1)) in
  let+ R := prf_w p (ull_to_bytes 32 idx) sk_prf in
  let+ sm := wr sm (sig_bytes p) m in
  let+ pub_root := rd sk (ib + 2 * n) n in
  if sig_bytes p <? padding_len p + 3 * n then UB else
  let+ (msg_h, sm) := hash_message_w p (fun _ => Ok R) pub_root idx sm
                        (sig_bytes p - padding_len p - 3 * n) (length m) in
  let+ sm := wr sm 0 (ull_to_bytes 4 idx) in
  let+ sm := wr sm 4 R in
  let ots_addr := set_ots_addr (set_type addr_zero 0) idx in
  let+ (sig, ots_addr) := wots_sign_w p msg_h sk_seed pub_seed ots_addr in
  let o := 4 + n in
  let+ sm := wr sm o sig in
  let o := o + wots_sig_bytes p in
  let+ au := rd (st_auth s) 0 (tree_height p * n) in
  let+ sm := wr sm o au in
  let+ lim := shl1_uint (tree_height p) in
  let+ s :=
    (if (idx <? lim - 1)%N then
       let+ s := bds_round_w p s idx sk_seed pub_seed ots_addr in
       let+ (s, _) := bds_treehash_update_w p s (N.shiftr (f_tree_height p - f_bds_k p) 1) sk_seed pub_seed ots_addr in
       Ok s
     else Ok s) in
  let o := o + tree_height p * n in
  let+ sm := wr sm o m in
  let+ ss := wrc ss 0 s in
  let+ sk := xmssmt_serialize_state p sk ss ws in
  Ok (mkSign 0 sk sm (o + length m)).

(** fast_xmss_core_sign, counted *)
Definition fast_xmss_core_sign_w (p : xmss_params) (sk sm : bytes) (smlen : nat) (m : bytes) : cost sign_out :=
  let ib := index_bytes p in
  let+ (ss, ws) := xmssmt_deserialize_state p sk in
  let+ x := rd sk 0 4 in
  let+ idx := bytes_to_ull x in
  let+ lim := shl1_ull (full_height p) in
  let last := (lim - 1)%N in
  if (last <=? idx)%N then
    let+ sk := wr sk 0 (repeat 255%N ib) in
    let+ sk := wr sk ib (repeat 0%N (sk_bytes p - ib)) in
    if (last <? idx)%N then Ok (mkSign (-2) sk sm smlen)
    else if (full_height p =? 64) && (idx =? last)%N then Ok (mkSign (-2) sk sm smlen)
    else
      let+ (zs, ws) := xmssmt_deserialize_state p sk in
      fast_sign_body_w p idx sk (reload_all zs ss) ws sm m
  else fast_sign_body_w p idx sk ss ws sm m.

(** xmss_core_fast.c:727-776 fast_xmssmt_core_keypair, counted *)
Definition fast_xmssmt_core_keypair_w (p : xmss_params) (pk sk : bytes) (r : nat -> N) : cost (Z * bytes * bytes) :=
  let n := p_n p in
  let ib := index_bytes p in
  let+ (ss, ws) := xmssmt_deserialize_state p sk in
  let ss := map (fun s => set_next_leaf (set_stackoffset s 0) 0%N) ss in
  let+ sk := wr sk 0 (repeat 0%N ib) in
  let+ sk := wr sk ib (rand_take r 0 (2 * n)) in
  let+ sk := wr sk (ib + 3 * n) (rand_take r (2 * n) n) in
  let+ ps := rd sk (ib + 3 * n) n in
  let+ pk := wr pk n ps in
  let+ sk_seed := rd sk ib n in
  let+ (pk, ss, ws, a) :=
    cforN (p_d p - 1) 0 (fun i '(pk, ss, ws, a) =>
      let+ s := rdc ss i in
      let+ (root, s) := treehash_init_w p (tree_height p) s sk_seed ps a in
      let+ pk := wr pk 0 root in
      let+ ss := wrc ss i s in
      let a := set_layer_addr a (N.of_nat (i + 1)) in
      let+ (sig, a) := wots_sign_w p root sk_seed ps a in
      let+ ws := wr ws (i * wots_sig_bytes p) sig in
      Ok (pk, ss, ws, a)) (pk, ss, ws, set_layer_addr addr_zero 0) in
  let+ s := rdc ss (p_d p - 1) in
  let+ (root, s) := treehash_init_w p (tree_height p) s sk_seed ps a in
  let+ pk := wr pk 0 root in
  let+ ss := wrc ss (p_d p - 1) s in
  let+ sk := wr sk (ib + 2 * n) root in
  let+ sk := xmssmt_serialize_state p sk ss ws in
  Ok (0%Z, pk, sk).

(** xmss_core_fast.c:941-982 mt_layer_step, counted *)
Definition mt_layer_step_w (p : xmss_params) (idx : N) (sk_seed pub_seed : bytes) (i : nat) (v : mt_vars) : cost mt_vars :=
  let h := tree_height p in
  let d := p_d p in
  let+ b := shl1_ull ((i + 1) * h) in
  let+ full := shl1_ull (full_height p) in
  let+ two_h := shl1_int h in
  if negb (N.land (idx + 1) (b - 1) =? 0)%N then
    let+ x := shr_ull idx (h * i) in
    let idx_leaf := u32 (N.land x (two_h - 1)) in
    let+ idx_tree := shr_ull idx (h * (i + 1)) in
    let a := set_layer_addr (mv_addr v) (N.of_nat i) in
    let a := set_tree_addr a idx_tree in
    let+ s := rdc (mv_ss v) i in
    let+ s := (if (Z.of_nat i =? mv_swap v + 1)%Z then bds_round_w p s idx_leaf sk_seed pub_seed a else Ok s) in
    let+ (s, updates) := bds_treehash_update_w p s (mv_updates v) sk_seed pub_seed a in
    let+ ss := wrc (mv_ss v) i s in
    let a := set_tree_addr a (idx_tree + 1) in
    let+ lim := shl1_ull (full_height p - h * i) in
    if (u64 ((1 + idx_tree) * two_h + idx_leaf) <? lim)%N then
      if (0 <? i) && (0 <? updates)%N then
        let+ nx := rdc ss (d + i) in
        if (st_next_leaf nx <? full)%N then
          let+ nx := bds_state_update_w p nx sk_seed pub_seed a in
          let+ ss := wrc ss (d + i) nx in
          Ok (mkMt ss (mv_ws v) a (mv_ots v) (u32 (updates + (2 ^ 32 - 1))) (mv_swap v))
        else Ok (mkMt ss (mv_ws v) a (mv_ots v) updates (mv_swap v))
      else Ok (mkMt ss (mv_ws v) a (mv_ots v) updates (mv_swap v))
    else Ok (mkMt ss (mv_ws v) a (mv_ots v) updates (mv_swap v))
  else if (idx <? full - 1)%N then
    let+ ss := deep_state_swap (mv_ss v) (d + i) i in
    let+ t := shr_ull (idx + 1) ((i + 2) * h) in
    let+ l := shr_ull idx ((i + 1) * h) in
    let ots := set_layer_addr (mv_ots v) (N.of_nat (i + 1)) in
    let ots := set_tree_addr ots t in
    let ots := set_ots_addr ots (N.land (l + 1) (two_h - 1)) in
    let+ s := rdc ss i in
    let+ (sig, ots) := wots_sign_w p (st_stack s) sk_seed pub_seed ots in
    let+ ws := wr (mv_ws v) (i * wots_sig_bytes p) sig in
    let+ nx := rdc ss (d + i) in
    let+ ss := wrc ss (d + i) (set_next_leaf (set_stackoffset nx 0) 0%N) in
    let ths := map (fun t => mkTh (th_h t) (th_next_idx t) (th_stackusage t) 1 (th_node t)) (st_treehash s) in
    let+ ss := wrc ss i (set_treehash s ths) in
    Ok (mkMt ss ws (mv_addr v) ots (u32 (mv_updates v + (2 ^ 32 - 1))) (Z.of_nat i))
  else Ok v.

(** xmss_core_fast.c:785-988 fast_mt_sign_body, counted *)
Definition fast_mt_sign_body_w (p : xmss_params) (idx : N) (sk : bytes) (ss : list bds_state) (ws : bytes)
    (sm m : bytes) : cost sign_out :=
  let n := p_n p in
  let ib := index_bytes p in
  let h := tree_height p in
  let+ sk_seed := rd sk ib n in
  let+ sk_prf := rd sk (ib + n) n in
  let+ pub_seed := rd sk (ib + 3 * n) n in
  let+ sk := wr sk 0 (ull_to_bytes ib (u64 (idx + 1))) in
  let+ R := prf_w p (ull_to_bytes 32 idx) sk_prf in
  let+ sm := wr sm (sig_bytes p) m in
  let+ pub_root := rd sk (ib + 2 * n) n in
  if sig_bytes p <? padding_len p + 3 * n then UB else
  let+ (msg_h, sm) := hash_message_w p (fun _ => Ok R) pub_root idx sm
                        (sig_bytes p - padding_len p - 3 * n) (length m) in
  let+ sm := wr sm 0 (ull_to_bytes ib idx) in
  let+ sm := wr sm ib R in
  let ots_addr := set_type addr_zero 0 in
  let+ idx_tree := shr_ull idx h in
  let+ two_h := shl1_int h in
  let idx_leaf := u32 (N.land idx (two_h - 1)) in
  let ots_addr := set_layer_addr ots_addr 0 in
  let ots_addr := set_tree_addr ots_addr idx_tree in
  let ots_addr := set_ots_addr ots_addr idx_leaf in
  let+ (sig, ots_addr) := wots_sign_w p msg_h sk_seed pub_seed ots_addr in
  let o := ib + n in
  let+ sm := wr sm o sig in
  let o := o + wots_sig_bytes p in
  let+ s0 := rdc ss 0 in
  let+ au := rd (st_auth s0) 0 (h * n) in
  let+ sm := wr sm o au in
  let o := o + h * n in
  let+ (sm, o) := cforN (p_d p - 1) 1 (fun i '(sm, o) =>
    let+ sg := rd ws ((i - 1) * wots_sig_bytes p) (wots_sig_bytes p) in
    let+ sm := wr sm o sg in
    let o := o + wots_sig_bytes p in
    let+ si := rdc ss i in
    let+ au := rd (st_auth si) 0 (h * n) in
    let+ sm := wr sm o au in
    Ok (sm, o + h * n)) (sm, o) in
  let a := set_tree_addr addr_zero (idx_tree + 1) in
  let+ full := shl1_ull (full_height p) in
  let+ ss := (if (u64 ((1 + idx_tree) * two_h + idx_leaf) <? full)%N then
                let+ nx := rdc ss (p_d p) in
                let+ nx := bds_state_update_w p nx sk_seed pub_seed a in
                wrc ss (p_d p) nx
              else Ok ss) in
  let+ v := cforN (p_d p) 0 (mt_layer_step_w p idx sk_seed pub_seed)
              (mkMt ss ws a ots_addr (N.shiftr (f_tree_height p - f_bds_k p) 1) (-1)) in
  let+ sm := wr sm o m in
  let+ sk := xmssmt_serialize_state p sk (mv_ss v) (mv_ws v) in
  Ok (mkSign 0 sk sm (o + length m)).

(** xmss_core_fast.c:785-858 fast_xmssmt_core_sign, counted *)
Definition fast_xmssmt_core_sign_w (p : xmss_params) (sk sm : bytes) (smlen : nat) (m : bytes) : cost sign_out :=
  let ib := index_bytes p in
  let+ (ss, ws) := xmssmt_deserialize_state p sk in
  let+ x := rd sk 0 ib in
  let+ idx := bytes_to_ull x in
  let+ lim := shl1_ull (full_height p) in
  let last := (lim - 1)%N in
  if (last <=? idx)%N then
    let+ sk := wr sk 0 (repeat 255%N ib) in
    let+ sk := wr sk ib (repeat 0%N (sk_bytes p - ib)) in
    if (last <? idx)%N then Ok (mkSign (-2) sk sm smlen)
    else if (full_height p =? 64) && (idx =? last)%N then Ok (mkSign (-2) sk sm smlen)
    else
      let+ (zs, ws) := xmssmt_deserialize_state p sk in
      fast_mt_sign_body_w p idx sk (reload_all zs ss) ws sm m
  else fast_mt_sign_body_w p idx sk ss ws sm m.

(** The API calls (xmss.c) with the fast core, counted; [mt] chooses between xmss_* and xmssmt_*. *)
Definition fast_keypair_work (mt : bool) :=
  keypair_wrapper_c (if mt then xmssmt_parse_oid else xmss_parse_oid) (c_sk_bytes fast_core)
    (if mt then fast_xmssmt_core_keypair_w else fast_xmss_core_keypair_w).
Definition fast_sign_work (mt : bool) :=
  sign_wrapper_c (if mt then xmssmt_parse_oid else xmss_parse_oid) (c_sk_bytes fast_core)
    (if mt then fast_xmssmt_core_sign_w else fast_xmss_core_sign_w).

End WithEnv.
