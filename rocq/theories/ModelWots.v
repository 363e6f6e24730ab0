(** Model of wots.c *)
From Verif Require Import Base ModelUtils ModelParams ModelHash.

Section WithEnv.
Context {E : Env}.

(** wots.c:14-29 expand_seed.  [outseeds] (len*n bytes) is written completely; the model
    returns its contents.  Result also carries the address afterwards. *)
Definition expand_seed (p : xmss_params) (inseed pub_seed : bytes) (a : addr) : res (bytes * addr) :=
  let a := set_hash_addr a 0 in
  let a := set_key_and_mask a 0 in
  let* ps := rd pub_seed 0 (p_n p) in
  forN (wots_len p) 0 (fun i '(out, a) =>
    let a := set_chain_addr a (N.of_nat i) in
    let* o := prf_keygen p (ps ++ addr_to_bytes a) inseed in
    Ok (out ++ o, a)) ([], a).

(** wots.c:38-53 gen_chain: [for (i = start; i < start+steps && i < wots_w; i++)] *)
Fixpoint gen_chain_loop (p : xmss_params) (steps i : nat) (out pub_seed : bytes) (a : addr)
  : res (bytes * addr) :=
  match steps with
  | O => Ok (out, a)
  | S k =>
      if i <? wots_w p then
        let a := set_hash_addr a (N.of_nat i) in
        let* (out, a) := thash_f p out pub_seed a in
        gen_chain_loop p k (S i) out pub_seed a
      else Ok (out, a)
  end.
Definition gen_chain (p : xmss_params) (inp : bytes) (start steps : nat) (pub_seed : bytes) (a : addr)
  : res (bytes * addr) :=
  let* out := rd inp 0 (p_n p) in
  gen_chain_loop p steps start out pub_seed a.

(** wots.c:60-79 base_w: [out_len] digits; [inx] is the C variable [in]. A negative shift
    count (bits < log_w) would be undefined. *)
Fixpoint base_w_loop (p : xmss_params) (k : nat) (input : bytes) (inx : nat) (total : N) (bits : nat)
  : res (list nat) :=
  match k with
  | O => Ok []
  | S k' =>
      let* (inx, total, bits) :=
        (if bits =? 0 then let* b := rdc input inx in Ok (S inx, b, 8) else Ok (inx, total, bits)) in
      if bits <? wots_log_w p then UB else
      let bits := bits - wots_log_w p in
      let dg := N.to_nat (N.land (N.shiftr total (N.of_nat bits)) (N.of_nat (wots_w p - 1))) in
      let* rest := base_w_loop p k' input inx total bits in
      Ok (dg :: rest)
  end.
Definition base_w (p : xmss_params) (out_len : nat) (input : bytes) : res (list nat) :=
  base_w_loop p out_len input 0 (junk 0) 0.

(** wots.c:82-99 wots_checksum *)
Definition wots_csum (p : xmss_params) (msg_base_w : list nat) : nat :=
  fold_left (fun c x => c + (wots_w p - 1 - x)) (firstn (wots_len1 p) msg_base_w) 0.
Definition wots_checksum (p : xmss_params) (msg_base_w : list nat) : res (list nat) :=
  let csum := N.of_nat (wots_csum p msg_base_w) in
  let csum := N.shiftl csum (N.of_nat (8 - (wots_len2 p * wots_log_w p) mod 8)) in
  let csum_bytes := ull_to_bytes ((wots_len2 p * wots_log_w p + 7) / 8) csum in
  base_w p (wots_len2 p) csum_bytes.

(** wots.c:102-107 chain_lengths *)
Definition chain_lengths (p : xmss_params) (msg : bytes) : res (list nat) :=
  let* l := base_w p (wots_len1 p) msg in
  let* c := wots_checksum p l in
  Ok (l ++ c).

(** wots.c:117-131 wots_pkgen: chains are advanced in place. *)
Definition wots_pkgen (p : xmss_params) (seed pub_seed : bytes) (a : addr) : res (bytes * addr) :=
  let* (pk, a) := expand_seed p seed pub_seed a in
  forN (wots_len p) 0 (fun i '(pk, a) =>
    let a := set_chain_addr a (N.of_nat i) in
    let* x := rd pk (i * p_n p) (p_n p) in
    let* (y, a) := gen_chain p x 0 (wots_w p - 1) pub_seed a in
    let* pk := wr pk (i * p_n p) y in
    Ok (pk, a)) (pk, a).

(** wots.c:137-155 wots_sign: returns the signature bytes written at [sig]. *)
Definition wots_sign (p : xmss_params) (msg seed pub_seed : bytes) (a : addr) : res (bytes * addr) :=
  let* lengths := chain_lengths p msg in
  let* (sig, a) := expand_seed p seed pub_seed a in
  forN (wots_len p) 0 (fun i '(sig, a) =>
    let a := set_chain_addr a (N.of_nat i) in
    let* li := rdc lengths i in
    let* x := rd sig (i * p_n p) (p_n p) in
    let* (y, a) := gen_chain p x 0 li pub_seed a in
    let* sig := wr sig (i * p_n p) y in
    Ok (sig, a)) (sig, a).

(** wots.c:162-176 wots_pk_from_sig: [sig] is read at chunk i, [pk] (a different array)
    is written completely, chunk by chunk. *)
Definition wots_pk_from_sig (p : xmss_params) (sig msg pub_seed : bytes) (a : addr)
  : res (bytes * addr) :=
  let* lengths := chain_lengths p msg in
  forN (wots_len p) 0 (fun i '(pk, a) =>
    let a := set_chain_addr a (N.of_nat i) in
    let* li := rdc lengths i in
    let* x := rd sig (i * p_n p) (p_n p) in
    let* (y, a) := gen_chain p x li (wots_w p - 1 - li) pub_seed a in
    Ok (pk ++ y, a)) ([], a).

End WithEnv.
