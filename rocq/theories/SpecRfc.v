(** Specification: RFC 8391 (XMSS: eXtended Merkle Signature Scheme), independent of the
    C code.  Only Base's [bytes] type is shared with the model.

    Numbers are [N]; tree levels, lengths and counters are [nat].  An address is written as
    the list of its fields and encoded to 32 bytes; [T] is the 8-byte tree address. *)
From Verif Require Import Base.

(** ** Conversions (RFC 8391 section 2.4) *)
(** toByte(x, y): the y-byte big-endian encoding of x. *)
Definition toByte (x : N) (y : nat) : bytes :=
  map (fun i => (x / 256 ^ N.of_nat (y - 1 - i)) mod 256)%N (seq 0 y).

(** The integer a byte string denotes, big-endian. *)
Definition os2ip (b : bytes) : N := fold_left (fun acc x => acc * 256 + x)%N b 0%N.

(** base_w (section 2.6): digit i of the byte string X read as a bit string, lg(w) = lgw bits
    per digit, most significant digit first. *)
Definition base_w_digit (lgw : nat) (X : bytes) (i : nat) : nat :=
  N.to_nat ((os2ip X / 2 ^ N.of_nat (8 * length X - (i + 1) * lgw)) mod (2 ^ N.of_nat lgw))%N.
Definition base_w_spec (lgw : nat) (X : bytes) (out_len : nat) : list nat :=
  map (base_w_digit lgw X) (seq 0 out_len).

Definition xorb_spec (x y : bytes) : bytes := map (fun q => N.lxor (fst q) (snd q)) (combine x y).

(** ** Addresses (section 2.5) *)
Inductive adrs : Type :=
| OTS  (layer tree ots chain hash keyAndMask : N)
| LTREE (layer tree ltree height index keyAndMask : N)
| HTREE (layer tree height index keyAndMask : N).

Definition adrs_bytes (a : adrs) : bytes :=
  match a with
  | OTS l t o c h k => toByte l 4 ++ toByte t 8 ++ toByte 0 4 ++ toByte o 4 ++ toByte c 4 ++ toByte h 4 ++ toByte k 4
  | LTREE l t o c h k => toByte l 4 ++ toByte t 8 ++ toByte 1 4 ++ toByte o 4 ++ toByte c 4 ++ toByte h 4 ++ toByte k 4
  | HTREE l t c h k => toByte l 4 ++ toByte t 8 ++ toByte 2 4 ++ toByte 0 4 ++ toByte c 4 ++ toByte h 4 ++ toByte k 4
  end.

(** ** Parameters *)
(** n, lg(w), the length of the toByte prefix of the keyed hash functions (n in RFC 8391,
    4 for the 192-bit sets of NIST SP 800-208), total height h, number of layers d, and the
    hash function. *)
Record sparams := mkSp {
  sp_n : nat; sp_lgw : nat; sp_pad : nat; sp_h : nat; sp_d : nat; sp_hash : bytes -> bytes }.
Definition sp_w (P : sparams) : nat := 2 ^ sp_lgw P.
(** len_1 = ceil(8n / lg(w)), len_2 = floor(lg(len_1 * (w - 1)) / lg(w)) + 1 (section 3.1.1) *)
Definition sp_len1 (P : sparams) : nat := (8 * sp_n P + sp_lgw P - 1) / sp_lgw P.
Definition sp_len2 (P : sparams) : nat := Nat.log2 (sp_len1 P * (sp_w P - 1)) / sp_lgw P + 1.
Definition sp_len (P : sparams) : nat := sp_len1 P + sp_len2 P.
(** height of one tree *)
Definition sp_th (P : sparams) : nat := sp_h P / sp_d P.
(** bytes of the index in a signature: 4 for XMSS, ceil(h/8) for XMSS^MT (4.1.8, 4.2.3) *)
Definition sp_ib (P : sparams) : nat := if sp_d P =? 1 then 4 else (sp_h P + 7) / 8.

Section Rfc.
Variable P : sparams.

(** ** Hash functions (section 5.1) *)
Definition PRF (key m : bytes) : bytes := sp_hash P (toByte 3 (sp_pad P) ++ key ++ m).
Definition PRF_keygen (key m : bytes) : bytes := sp_hash P (toByte 4 (sp_pad P) ++ key ++ m).
Definition F (key m : bytes) : bytes := sp_hash P (toByte 0 (sp_pad P) ++ key ++ m).
Definition H (key m : bytes) : bytes := sp_hash P (toByte 1 (sp_pad P) ++ key ++ m).
Definition H_msg (r root : bytes) (idx : N) (m : bytes) : bytes :=
  sp_hash P (toByte 2 (sp_pad P) ++ (r ++ root ++ toByte idx (sp_n P)) ++ m).

(** RAND_HASH (section 4.1.4) of two nodes; [A k] is the address with keyAndMask = k. *)
Definition RAND_HASH (seed : bytes) (A : N -> adrs) (l r : bytes) : bytes :=
  let key := PRF seed (adrs_bytes (A 0%N)) in
  let bm0 := PRF seed (adrs_bytes (A 1%N)) in
  let bm1 := PRF seed (adrs_bytes (A 2%N)) in
  H key (xorb_spec l bm0 ++ xorb_spec r bm1).

(** ** WOTS+ (section 3.1) for the one-time key [o] of tree [T] on layer [L] *)
Section Ots.
Variables (seed : bytes) (L T o : N).

(** chain (Algorithm 2) *)
Fixpoint chain (X : bytes) (c : nat) (i s : nat) : bytes :=
  match s with
  | O => X
  | S s' =>
      let A := OTS L T o (N.of_nat c) (N.of_nat (i + s')) in
      let tmp := chain X c i s' in
      F (PRF seed (adrs_bytes (A 0%N))) (xorb_spec tmp (PRF seed (adrs_bytes (A 1%N))))
  end.

(** message digits and checksum (Algorithm 5) *)
Definition csum_spec (ds : list nat) : nat := fold_right (fun x c => (sp_w P - 1 - x) + c) 0 ds.
Definition wots_digits (M : bytes) : list nat :=
  let msg := base_w_spec (sp_lgw P) M (sp_len1 P) in
  let csum := (N.of_nat (csum_spec msg) * 2 ^ N.of_nat (8 - (sp_len2 P * sp_lgw P) mod 8))%N in
  msg ++ base_w_spec (sp_lgw P) (toByte csum ((sp_len2 P * sp_lgw P + 7) / 8)) (sp_len2 P).

Definition wots_sk (sk_seed : bytes) (c : nat) : bytes :=
  PRF_keygen sk_seed (seed ++ adrs_bytes (OTS L T o (N.of_nat c) 0 0)).
(** Algorithm 4: the n-byte strings of the public key *)
Definition wots_pk (sk_seed : bytes) : list bytes :=
  map (fun c => chain (wots_sk sk_seed c) c 0 (sp_w P - 1)) (seq 0 (sp_len P)).
(** Algorithm 5 *)
Definition wots_sig (sk_seed M : bytes) : list bytes :=
  map (fun c => chain (wots_sk sk_seed c) c 0 (nth c (wots_digits M) 0)) (seq 0 (sp_len P)).
(** Algorithm 6 *)
Definition wots_pkFromSig (M : bytes) (sig : list bytes) : list bytes :=
  map (fun c => let b := nth c (wots_digits M) 0 in
                chain (nth c sig []) c b (sp_w P - 1 - b)) (seq 0 (sp_len P)).
End Ots.

(** ** L-trees (Algorithm 8) *)
Section Ltree.
Variables (seed : bytes) (L T o : N).
(** one level: nodes 2i and 2i+1 are replaced by their parent, an odd last node is kept *)
Fixpoint ltree_level (height : nat) (i : nat) (nodes : list bytes) : list bytes :=
  match nodes with
  | a :: b :: rest =>
      RAND_HASH seed (LTREE L T o (N.of_nat height) (N.of_nat i)) a b :: ltree_level height (S i) rest
  | rest => rest
  end.
(** [while (len' > 1)]; [k] bounds the number of levels *)
Fixpoint ltree (k height : nat) (nodes : list bytes) : bytes :=
  match k with
  | O => hd [] nodes
  | S k' => if length nodes <=? 1 then hd [] nodes else ltree k' (S height) (ltree_level height 0 nodes)
  end.
End Ltree.

(** leaf [i] of tree [T] on layer [L] *)
Definition leaf (sk_seed seed : bytes) (L T i : N) : bytes :=
  ltree seed L T i (sp_len P) 0 (wots_pk seed L T i sk_seed).

(** ** Merkle tree (Algorithm 9): node [i] on level [j] *)
Fixpoint node (sk_seed seed : bytes) (L T : N) (j : nat) (i : N) : bytes :=
  match j with
  | O => leaf sk_seed seed L T i
  | S j' => RAND_HASH seed (HTREE L T (N.of_nat j') i)
              (node sk_seed seed L T j' (2 * i)) (node sk_seed seed L T j' (2 * i + 1))
  end.
Definition root (sk_seed seed : bytes) (L T : N) : bytes := node sk_seed seed L T (sp_th P) 0.

(** The sibling of node number x *)
Definition sibling (x : N) : N := if N.even x then (x + 1)%N else (x - 1)%N.

(** authentication path of leaf [i] (section 4.1.9) *)
Definition auth_path (sk_seed seed : bytes) (L T i : N) : list bytes :=
  map (fun j => node sk_seed seed L T j (sibling (i / 2 ^ N.of_nat j))) (seq 0 (sp_th P)).

(** XMSS_rootFromSig (Algorithm 13), the climb from a leaf: [nd] is the node on level [j]
    whose index is [i] *)
Fixpoint climb (seed : bytes) (L T : N) (nd : bytes) (j : nat) (i : N) (auth : list bytes) : bytes :=
  match auth with
  | [] => nd
  | a :: rest =>
      let A := HTREE L T (N.of_nat j) (i / 2) in
      climb seed L T (if N.even i then RAND_HASH seed A nd a else RAND_HASH seed A a nd)
            (S j) (i / 2)%N rest
  end.
Definition rootFromSig (seed : bytes) (L T i : N) (M : bytes) (sig auth : list bytes) : bytes :=
  climb seed L T (ltree seed L T i (sp_len P) 0 (wots_pkFromSig seed L T i M sig)) 0 i auth.

(** ** XMSS^MT (section 4.2); XMSS is the case d = 1 *)
(** the tree on layer [k] and the leaf in it used by signature number [idx] *)
Definition tree_of (idx : N) (k : nat) : N := (idx / 2 ^ N.of_nat (sp_th P * (k + 1)))%N.
Definition leaf_of (idx : N) (k : nat) : N := ((idx / 2 ^ N.of_nat (sp_th P * k)) mod 2 ^ N.of_nat (sp_th P))%N.

(** what layer [k] signs: the message hash, or the root of the tree below *)
Definition layer_msg (sk_seed seed M' : bytes) (idx : N) (k : nat) : bytes :=
  match k with
  | O => M'
  | S k' => root sk_seed seed (N.of_nat k') (tree_of idx k')
  end.
Definition layer_sig (sk_seed seed M' : bytes) (idx : N) (k : nat) : bytes :=
  let L := N.of_nat k in let T := tree_of idx k in let i := leaf_of idx k in
  concat (wots_sig seed L T i sk_seed (layer_msg sk_seed seed M' idx k)) ++
  concat (auth_path sk_seed seed L T i).

(** the public root *)
Definition mt_root (sk_seed seed : bytes) : bytes := root sk_seed seed (N.of_nat (sp_d P - 1)) 0.

(** Algorithm 16 (Algorithm 12 for d = 1): idx || r || signatures of the d layers *)
Definition mt_sign (sk_seed sk_prf rt seed : bytes) (idx : N) (m : bytes) : bytes :=
  let r := PRF sk_prf (toByte idx 32) in
  let M' := H_msg r rt idx m in
  toByte idx (sp_ib P) ++ r ++ concat (map (layer_sig sk_seed seed M' idx) (seq 0 (sp_d P))).

(** Splitting a byte string into n-byte pieces *)
Fixpoint pieces (k : nat) (b : bytes) : list bytes :=
  match k with
  | O => []
  | S k' => firstn (sp_n P) b :: pieces k' (skipn (sp_n P) b)
  end.

(** Algorithm 17 (Algorithm 14 for d = 1): the root computed from the d layer signatures *)
Fixpoint mt_climb (seed : bytes) (idx : N) (M : bytes) (k cnt : nat) (sigs : bytes) : bytes :=
  match cnt with
  | O => M
  | S cnt' =>
      let M1 := rootFromSig seed (N.of_nat k) (tree_of idx k) (leaf_of idx k) M
                  (pieces (sp_len P) sigs)
                  (pieces (sp_th P) (skipn (sp_len P * sp_n P) sigs)) in
      mt_climb seed idx M1 (S k) cnt' (skipn ((sp_len P + sp_th P) * sp_n P) sigs)
  end.
Definition sp_sig_bytes : nat := sp_ib P + sp_n P + sp_d P * ((sp_len P + sp_th P) * sp_n P).
Definition mt_verify (rt seed sig m : bytes) : bool :=
  let idx := os2ip (firstn (sp_ib P) sig) in
  let r := firstn (sp_n P) (skipn (sp_ib P) sig) in
  let M' := H_msg r rt idx m in
  let nd := mt_climb seed idx M' 0 (sp_d P) (skipn (sp_ib P + sp_n P) sig) in
  if list_eq_dec N.eq_dec nd rt then true else false.
End Rfc.
