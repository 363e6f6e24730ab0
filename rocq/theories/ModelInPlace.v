(** The API functions called with one buffer for the message and the signed message: the same
    code as in ModelCore, ModelCoreFast and ModelCommons, with the reads and writes through both
    pointers going to one memory.  xmss.h does not exclude such calls. *)
From Verif Require Import Base ModelUtils ModelParams ModelHash ModelWots ModelCommons ModelCore ModelCoreFast ModelXmss.

Section WithEnv.
Context {E : Env}.

(** memcpy(buf + dst, buf + src, len).  Partial overlap is UB.  Copying a region onto itself is
    undefined by the letter of the C standard as well; here it changes nothing, as in every
    common implementation (so statements about failures are not due to the letter). *)
Definition memcpy_in (buf : bytes) (dst src len : nat) : res bytes :=
  let* d := rd buf src len in
  if dst =? src then Ok buf
  else if (dst <? src + len) && (src <? dst + len) then UB
  else wr buf dst d.

(** xmss_core.c:183-273 xmssmt_core_sign with m = sm + om.  m is read at line 205 only. *)
Definition ref_xmssmt_core_sign_in (p : xmss_params) (sk sm : bytes) (smlen om mlen : nat) : res sign_out :=
  let ib := index_bytes p in
  let* sm := memcpy_in sm (sig_bytes p) om mlen in
  let smlen := sig_bytes p + mlen in
  let* x := rd sk 0 ib in
  let* idx := bytes_to_ull x in
  let* lim := shl1_ull (full_height p) in
  let last := (lim - 1)%N in
  if (last <=? idx)%N then
    let* sk := wr sk 0 (repeat 255%N ib) in
    let* sk := wr sk ib (repeat 0%N (sk_bytes p - ib)) in
    if (last <? idx)%N then Ok (mkSign (-2) sk sm smlen)
    else if (full_height p =? 64) && (idx =? last)%N then Ok (mkSign (-2) sk sm smlen)
    else ref_sign_body p idx sk sm smlen mlen
  else ref_sign_body p idx sk sm smlen mlen.

(** xmss_core_fast.c:624-718, the part of xmss_core_sign after the exhaustion check, with
    m = sm + om.  m is read at line 661 and again at line 713, when the signature is written. *)
Definition fast_sign_body_in (p : xmss_params) (idx : N) (sk : bytes) (ss : list bds_state) (ws : bytes)
    (sm : bytes) (om mlen : nat) : res sign_out :=
  let n := p_n p in
  let ib := index_bytes p in
  let* sk_seed := rd sk ib n in
  let* sk_prf := rd sk (ib + n) n in
  let* pub_seed := rd sk (ib + 3 * n) n in
  let* s := rdc ss 0 in
  let* sk := wr sk 0 (ull_to_bytes 4 (idx + 1)) in
  let* R := prf p (ull_to_bytes 32 idx) sk_prf in
  let* sm := memcpy_in sm (sig_bytes p) om mlen in
  let* pub_root := rd sk (ib + 2 * n) n in
  if sig_bytes p <? padding_len p + 3 * n then UB else
  let* (msg_h, sm) := hash_message p (fun _ => Ok R) pub_root idx sm
                        (sig_bytes p - padding_len p - 3 * n) mlen in
  let* sm := wr sm 0 (ull_to_bytes 4 idx) in
  let* sm := wr sm 4 R in
  let ots_addr := set_ots_addr (set_type addr_zero 0) idx in
  let* (sig, ots_addr) := wots_sign p msg_h sk_seed pub_seed ots_addr in
  let o := 4 + n in
  let* sm := wr sm o sig in
  let o := o + wots_sig_bytes p in
  let* au := rd (st_auth s) 0 (tree_height p * n) in
  let* sm := wr sm o au in
  let* lim := shl1_uint (tree_height p) in
  let* s :=
    (if (idx <? lim - 1)%N then
       let* s := bds_round p s idx sk_seed pub_seed ots_addr in
       let* (s, _) := bds_treehash_update p s (N.shiftr (f_tree_height p - f_bds_k p) 1) sk_seed pub_seed ots_addr in
       Ok s
     else Ok s) in
  let o := o + tree_height p * n in
  let* sm := memcpy_in sm o om mlen in
  let* ss := wrc ss 0 s in
  let* sk := xmssmt_serialize_state p sk ss ws in
  Ok (mkSign 0 sk sm (o + mlen)).

(** xmss_core_fast.c:580-623 xmss_core_sign *)
Definition fast_xmss_core_sign_in (p : xmss_params) (sk sm : bytes) (smlen om mlen : nat) : res sign_out :=
  let ib := index_bytes p in
  let* (ss, ws) := xmssmt_deserialize_state p sk in
  let* x := rd sk 0 4 in
  let* idx := bytes_to_ull x in
  let* lim := shl1_ull (full_height p) in
  let last := (lim - 1)%N in
  if (last <=? idx)%N then
    let* sk := wr sk 0 (repeat 255%N ib) in
    let* sk := wr sk ib (repeat 0%N (sk_bytes p - ib)) in
    if (last <? idx)%N then Ok (mkSign (-2) sk sm smlen)
    else if (full_height p =? 64) && (idx =? last)%N then Ok (mkSign (-2) sk sm smlen)
    else
      let* (zs, ws) := xmssmt_deserialize_state p sk in
      fast_sign_body_in p idx sk (reload_all zs ss) ws sm om mlen
  else fast_sign_body_in p idx sk ss ws sm om mlen.

(** xmss_core_fast.c:847-988 xmssmt_core_sign, the part after the exhaustion check, with
    m = sm + om.  m is read at line 870 and again at line 982. *)
Definition fast_mt_sign_body_in (p : xmss_params) (idx : N) (sk : bytes) (ss : list bds_state) (ws : bytes)
    (sm : bytes) (om mlen : nat) : res sign_out :=
  let n := p_n p in
  let ib := index_bytes p in
  let h := tree_height p in
  let* sk_seed := rd sk ib n in
  let* sk_prf := rd sk (ib + n) n in
  let* pub_seed := rd sk (ib + 3 * n) n in
  let* sk := wr sk 0 (ull_to_bytes ib (u64 (idx + 1))) in
  let* R := prf p (ull_to_bytes 32 idx) sk_prf in
  let* sm := memcpy_in sm (sig_bytes p) om mlen in
  let* pub_root := rd sk (ib + 2 * n) n in
  if sig_bytes p <? padding_len p + 3 * n then UB else
  let* (msg_h, sm) := hash_message p (fun _ => Ok R) pub_root idx sm
                        (sig_bytes p - padding_len p - 3 * n) mlen in
  let* sm := wr sm 0 (ull_to_bytes ib idx) in
  let* sm := wr sm ib R in
  let ots_addr := set_type addr_zero 0 in
  let* idx_tree := shr_ull idx h in
  let* two_h := shl1_int h in
  let idx_leaf := u32 (N.land idx (two_h - 1)) in
  let ots_addr := set_layer_addr ots_addr 0 in
  let ots_addr := set_tree_addr ots_addr idx_tree in
  let ots_addr := set_ots_addr ots_addr idx_leaf in
  let* (sig, ots_addr) := wots_sign p msg_h sk_seed pub_seed ots_addr in
  let o := ib + n in
  let* sm := wr sm o sig in
  let o := o + wots_sig_bytes p in
  let* s0 := rdc ss 0 in
  let* au := rd (st_auth s0) 0 (h * n) in
  let* sm := wr sm o au in
  let o := o + h * n in
  let* (sm, o) := forN (p_d p - 1) 1 (fun i '(sm, o) =>
    let* sg := rd ws ((i - 1) * wots_sig_bytes p) (wots_sig_bytes p) in
    let* sm := wr sm o sg in
    let o := o + wots_sig_bytes p in
    let* si := rdc ss i in
    let* au := rd (st_auth si) 0 (h * n) in
    let* sm := wr sm o au in
    Ok (sm, o + h * n)) (sm, o) in
  let a := set_tree_addr addr_zero (idx_tree + 1) in
  let* full := shl1_ull (full_height p) in
  let* ss := (if (u64 ((1 + idx_tree) * two_h + idx_leaf) <? full)%N then
                let* nx := rdc ss (p_d p) in
                let* nx := bds_state_update p nx sk_seed pub_seed a in
                wrc ss (p_d p) nx
              else Ok ss) in
  let* v := forN (p_d p) 0 (mt_layer_step p idx sk_seed pub_seed)
              (mkMt ss ws a ots_addr (N.shiftr (f_tree_height p - f_bds_k p) 1) (-1)) in
  let* sm := memcpy_in sm o om mlen in
  let* sk := xmssmt_serialize_state p sk (mv_ss v) (mv_ws v) in
  Ok (mkSign 0 sk sm (o + mlen)).

(** xmss_core_fast.c:785-846 xmssmt_core_sign *)
Definition fast_xmssmt_core_sign_in (p : xmss_params) (sk sm : bytes) (smlen om mlen : nat) : res sign_out :=
  let ib := index_bytes p in
  let* (ss, ws) := xmssmt_deserialize_state p sk in
  let* x := rd sk 0 ib in
  let* idx := bytes_to_ull x in
  let* lim := shl1_ull (full_height p) in
  let last := (lim - 1)%N in
  if (last <=? idx)%N then
    let* sk := wr sk 0 (repeat 255%N ib) in
    let* sk := wr sk ib (repeat 0%N (sk_bytes p - ib)) in
    if (last <? idx)%N then Ok (mkSign (-2) sk sm smlen)
    else if (full_height p =? 64) && (idx =? last)%N then Ok (mkSign (-2) sk sm smlen)
    else
      let* (zs, ws) := xmssmt_deserialize_state p sk in
      fast_mt_sign_body_in p idx sk (reload_all zs ss) ws sm om mlen
  else fast_mt_sign_body_in p idx sk ss ws sm om mlen.

(** xmss_commons.c:136-215 xmssmt_core_sign_open with m = sm (= [buf], of which the first
    [smlen] bytes are the signed message).  Result: *mlen and the buffer. *)
Definition xmssmt_core_sign_open_in (p : xmss_params) (buf : bytes) (smlen : nat) (pk : bytes) : res open_out :=
  let n := p_n p in
  let* pub_root := rd pk 0 n in
  let* pub_seed := rd pk n n in
  let ots_addr := set_type addr_zero XMSS_ADDR_TYPE_OTS in
  let ltree_addr := set_type addr_zero XMSS_ADDR_TYPE_LTREE in
  let node_addr := set_type addr_zero XMSS_ADDR_TYPE_HASHTREE in
  let* ib := rd buf 0 (index_bytes p) in
  let* idx := bytes_to_ull ib in
  if smlen <? sig_bytes p then UB else
  let mlen := smlen - sig_bytes p in
  let* buf := memcpy_in buf (sig_bytes p) (sig_bytes p) mlen in
  if sig_bytes p <? padding_len p + 3 * n then UB else
  let* (mhash, buf) := hash_message p (fun b => rd b (index_bytes p) n) pk idx buf
                         (sig_bytes p - padding_len p - 3 * n) mlen in
  let* two_h := shl1_int (tree_height p) in
  let* (root, idx, off, _, _, _) :=
    forN (p_d p) 0 (fun i '(root, idx, off, ots_addr, ltree_addr, node_addr) =>
      let idx_leaf := N.land idx (two_h - 1) in
      let idx := N.shiftr idx (N.of_nat (tree_height p)) in
      let ots_addr := set_layer_addr ots_addr (N.of_nat i) in
      let ltree_addr := set_layer_addr ltree_addr (N.of_nat i) in
      let node_addr := set_layer_addr node_addr (N.of_nat i) in
      let ltree_addr := set_tree_addr ltree_addr idx in
      let ots_addr := set_tree_addr ots_addr idx in
      let node_addr := set_tree_addr node_addr idx in
      let ots_addr := set_ots_addr ots_addr idx_leaf in
      let* sig := rd buf off (wots_sig_bytes p) in
      let* (wots_pk, ots_addr) := wots_pk_from_sig p sig root pub_seed ots_addr in
      let off := off + wots_sig_bytes p in
      let ltree_addr := set_ltree_addr ltree_addr idx_leaf in
      let* (leaf, ltree_addr) := l_tree p wots_pk pub_seed ltree_addr in
      let* (root, node_addr) := compute_root p leaf idx_leaf buf off pub_seed node_addr in
      let off := off + tree_height p * n in
      Ok (root, idx, off, ots_addr, ltree_addr, node_addr))
      (mhash, idx, index_bytes p + n, ots_addr, ltree_addr, node_addr) in
  if list_eq_dec N.eq_dec root pub_root then
    let* buf := memcpy_in buf 0 off mlen in
    Ok (mkOpen 0 buf mlen)
  else
    let* buf := wr buf 0 (repeat 0%N mlen) in
    Ok (mkOpen (-1) buf 0).

(** xmss.c:28-43 and 75-90: xmss_sign / xmssmt_sign with m = sm + om, either core *)
Definition sign_in (mt fast : bool) (sk sm : bytes) (smlen om mlen : nat) : res sign_out :=
  sign_wrapper (if mt then xmssmt_parse_oid else xmss_parse_oid) (if fast then fast_core_sk_bytes else ref_core_sk_bytes)
    (fun p sk sm smlen _ => (if fast then if mt then fast_xmssmt_core_sign_in else fast_xmss_core_sign_in else ref_xmssmt_core_sign_in)
                              p sk sm smlen om mlen) sk sm smlen [].
(** xmss.c:45-60 and 92-107: xmss_sign_open / xmssmt_sign_open with m = sm *)
Definition sign_open_in (mt : bool) (c : core) (buf : bytes) (mlen smlen : nat) (pk : bytes) : res open_out :=
  let* oid := oid_of_bytes pk in
  let* op := (if mt then xmssmt_parse_oid else xmss_parse_oid) (c_sk_bytes c) uninit_params oid in
  match op with
  | None => Ok (mkOpen (-1) buf mlen)
  | Some p => xmssmt_core_sign_open_in p buf smlen (skipn XMSS_OID_LEN pk)
  end.
End WithEnv.
