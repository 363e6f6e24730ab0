(** The fast core on arbitrary keys: the stored traversal state may hold anything. *)
From Verif Require Import Base Lib ModelUtils ModelParams ModelHash ModelWots ModelCommons ModelCore ModelCoreFast ModelXmss SpecRfc SpecParams SpecApi SpecComp SpecFast
  ProofUtils ProofParams ProofApi ProofMain ProofFast3 ProofFast6 ProofFast7 ProofMt7 ProofAny PropApi PropFast PropMt.
Local Existing Instance ex_env.

(** C51. For every secret key with the right length and OID (all bytes after the OID
    arbitrary, so the index, the seeds and the traversal state may be damaged) and every
    history of calls that return: the k-th call uses exactly the stored index plus k, stores
    that plus one, gives a signed message that carries the message and this index, and
    from 2^h on every call is refused and leaves the output alone. *)
Theorem C51_any_key_counts_up : forall (E : Env) mt r, In r (rows mt) -> r_h r < 8 * idx_size r ->
  forall sk cs sk' os, length sk = 4 + fast_size r -> firstn 4 sk = toByte (r_oid r) 4 -> bytes_ok (firstn (4 + idx_size r) sk) ->
  sign_run mt fast_core sk cs = Ok (sk', os) ->
  let lim := (2 ^ N.of_nat (r_h r))%N in
  length os = length cs /\
  forall k x o, nth_error cs k = Some x -> nth_error os k = Some o ->
    let i := (sk_index r sk + N.of_nat k)%N in
    ((i < lim)%N -> so_rc o = 0%Z /\ sm_index r (so_sm o) = i /\ so_smlen o = sig_size r + length (c_m x) /\
                    skipn (sig_size r) (signed_message o) = c_m x /\ sk_index r (so_sk o) = (i + 1)%N) /\
    ((lim <= i)%N -> so_rc o = (-2)%Z /\ so_sm o = c_sm x /\ so_smlen o = c_smlen x /\ (lim <= sk_index r (so_sk o))%N).
Proof.
  intros E mt r Hr Hh sk cs sk' os K1 K2 K3 Hrun lim. destruct (any_run_h mt r Hr Hh cs sk sk' os (mk_keyish r sk K1 K2 K3) Hrun) as (_ & Hl & Hn).
  split; [exact Hl|]. intros k x o Hx Ho i. destruct (Hn k x o Hx Ho) as [A B]. split; intros Hi.
  - destruct (A Hi) as ((S1 & S2 & _ & S4 & S5) & S6). repeat split; assumption.
  - destruct (B Hi) as ((S1 & S2 & S3) & S4). repeat split; assumption.
Qed.
Print Assumptions C51_any_key_counts_up.
(** so, whatever the key holds, no index is used twice *)
Theorem C51_any_key_no_index_reuse : forall (E : Env) mt r, In r (rows mt) -> r_h r < 8 * idx_size r ->
  forall sk cs sk' os, length sk = 4 + fast_size r -> firstn 4 sk = toByte (r_oid r) 4 -> bytes_ok (firstn (4 + idx_size r) sk) ->
  sign_run mt fast_core sk cs = Ok (sk', os) ->
  forall i j oi oj, i < j -> nth_error os i = Some oi -> nth_error os j = Some oj ->
    so_rc oi = 0%Z -> so_rc oj = 0%Z -> sm_index r (so_sm oi) <> sm_index r (so_sm oj).
Proof.
  intros E mt r Hr Hh sk cs sk' os K1 K2 K3 Hrun i j oi oj Hij Hi Hj Ri Rj.
  destruct (C51_any_key_counts_up E mt r Hr Hh sk cs sk' os K1 K2 K3 Hrun) as (Hl & Hn).
  assert (HX : forall k o, nth_error os k = Some o -> so_rc o = 0%Z -> sm_index r (so_sm o) = (sk_index r sk + N.of_nat k)%N).
  { intros k o Ho Rc. assert (Hlt : k < length cs) by (rewrite <- Hl; apply nth_error_Some; congruence).
    destruct (nth_error cs k) as [x|] eqn:Ex; [|apply nth_error_None in Ex; lia]. destruct (Hn k x o Ex Ho) as [A B].
    destruct (N.lt_ge_cases (sk_index r sk + N.of_nat k) (2 ^ N.of_nat (r_h r))) as [Hc|Hc]; [apply (A Hc)|]. destruct (B Hc) as [Hx _]. rewrite Hx in Rc. discriminate. }
  rewrite (HX i oi Hi Ri), (HX j oj Hj Rj). lia.
Qed.
Print Assumptions C51_any_key_no_index_reuse.
(** C05, C44 for one call on an arbitrary key: the four seeds stay as they are, or are all
    zero if the index was the last one. *)
Theorem C51_any_key_change : forall (E : Env) mt r, In r (rows mt) ->
  forall sk sm smlen m o, length sk = 4 + fast_size r -> firstn 4 sk = toByte (r_oid r) 4 -> bytes_ok (firstn (4 + idx_size r) sk) ->
  sign mt fast_core sk sm smlen m = Ok o -> so_rc o = 0%Z ->
  let lim := (2 ^ N.of_nat (r_h r))%N in
  length (so_sk o) = length sk /\ firstn 4 (so_sk o) = firstn 4 sk /\
  (sk_index r sk < lim)%N /\ sk_index r (so_sk o) = ((sk_index r sk + 1) mod 256 ^ N.of_nat (idx_size r))%N /\
  forall j, j < 4 -> sk_field r j (so_sk o) = if (sk_index r sk + 1 =? lim)%N then repeat 0%N (r_n r) else sk_field r j sk.
Proof.
  intros E mt r Hr sk sm smlen m o K1 K2 K3 Hs Rc lim. destruct (any_step mt r Hr sk (mkCall m sm smlen) o (mk_keyish r sk K1 K2 K3) Hs) as ((L1 & L2 & _) & HS).
  split; [congruence|]. split; [congruence|].
  destruct HS as [(_ & (D & _) & _)|(A1 & A2 & A3 & A4 & A5)]; [rewrite D in Rc; discriminate|].
  split; [exact A1|]. split; [exact A3|]. intros j Hj. destruct (N.eqb_spec (sk_index r sk + 1) lim) as [He|Hne]; [now apply A5|]. apply A4; [unfold lim in *; lia|exact Hj].
Qed.
Print Assumptions C51_any_key_change.
(** a key whose traversal state is garbage, and one in use *)
Example C51_applies : (key_of ex_row (fast_size ex_row) (ex_fsk 1024) /\
    exists sk' os, sign_run false fast_core (ex_fsk 1024) [ex_call] = Ok (sk', os)) /\
  exists pk sk sk' os, keypair false fast_core (repeat 0%N 68) (repeat 0%N 1377) (r_oid ex_row) ex_rnd = Ok (0%Z, pk, sk) /\
    length sk = 4 + fast_size ex_row /\ firstn 4 sk = toByte (r_oid ex_row) 4 /\ bytes_ok (firstn (4 + idx_size ex_row) sk) /\
    sign_run false fast_core sk (repeat ex_call 2000) = Ok (sk', os).
Proof.
  split.
  - assert (Hk := proj1 (ex_fsk_key 1024 ltac:(right; right; now left))). split; [exact Hk|]. cbn [sign_run].
    assert (Hi : (2 ^ N.of_nat (r_h ex_row) <= sk_index ex_row (ex_fsk 1024))%N).
    { rewrite (proj2 (ex_fsk_key 1024 ltac:(right; right; now left))). vm_compute. discriminate. }
    pose proof (C44_fast_refused_key_is_wiped ex_env false ex_row ex_row_in (ex_fsk 1024) (c_sm ex_call) (c_smlen ex_call) (c_m ex_call) Hk Hi) as Hs.
    rewrite Hs, bind_ok, bind_ok. eexists _, _. reflexivity.
  - destruct C03_fast_applies as (pk & sk & Hkp & Hok & _). exists pk, sk.
    destruct (C03_fast_life ex_env ex_env_ok ex_row ex_row_in ex_rnd (repeat 0%N 68) (repeat 0%N 1377) (repeat ex_call 2000) pk sk ex_rnd_bytes ex_pk_len ex_fast_len (ex_fast_bytes _) Hkp Hok)
      as (sk' & os & Hrun & _). exists sk', os. split; [exact Hkp|]. 
    destruct (fkey_mat ex_env_ok false ex_row ex_row_in (good1 ex_row) (x_Gkey ex_env_ok ex_row ex_row_in) (repeat 0%N 68) (repeat 0%N 1377) ex_rnd ex_rnd_bytes ex_pk_len ex_fast_len (ex_fast_bytes _))
      as (a & b & ct & d & ext & Hf & _ & _ & HG & Hkp'). rewrite Hkp in Hkp'. assert (Esk : sk = secret_key ex_row 0 a b ct d ++ ext) by congruence. rewrite Esk in *. clear Hkp'.
    destruct (fsk_good false ex_row ex_row_in 0%N a b ct d ext Hf (x_Gser ex_env_ok ex_row ex_row_in a d 0%N ext (proj1 (proj1 Hf)) (proj2 (proj2 (proj2 (proj1 Hf)))) HG)) as (G1 & G2 & G3).
    repeat (split; [assumption|]). exact Hrun.
Qed.

(** C04 refuted for the 40-level sets of the fast core, on arbitrary keys: a call that returns has
    signed, and the indices start over after 2^40. *)
Theorem C04_refuted_fast_height_40 : forall (E : Env) mt r, In r (rows mt) -> r_h r = 8 * idx_size r ->
  forall sk cs sk' os, length sk = 4 + fast_size r -> firstn 4 sk = toByte (r_oid r) 4 -> bytes_ok (firstn (4 + idx_size r) sk) ->
  sign_run mt fast_core sk cs = Ok (sk', os) ->
  let lim := (2 ^ N.of_nat (r_h r))%N in
  length os = length cs /\
  forall k x o, nth_error cs k = Some x -> nth_error os k = Some o ->
    let i := (sk_index r sk + N.of_nat k)%N in
    so_rc o = 0%Z /\ sm_index r (so_sm o) = (i mod lim)%N /\ so_smlen o = sig_size r + length (c_m x) /\ sk_index r (so_sk o) = ((i + 1) mod lim)%N.
Proof.
  intros E mt r Hr Hh sk cs sk' os K1 K2 K3 Hrun lim. destruct (any_run_40 mt r Hr Hh cs sk sk' os (mk_keyish r sk K1 K2 K3) Hrun) as (_ & Hl & Hn).
  split; [exact Hl|]. intros k x o Hx Ho i. destruct (Hn k x o Hx Ho) as ((S1 & S2 & _ & S4 & S5) & S6). repeat split; assumption.
Qed.
Print Assumptions C04_refuted_fast_height_40.

(** C17, what holds.  With buffers of the sizes the OID asks for, sign (reference core) and open
    (either core) have defined behaviour exactly when the first OID byte is below 0x80. *)
Theorem C17_sign_defined_iff_partial : forall E : Env, env_ok E -> forall mt sk sm smlen m, 4 <= length sk -> bytes_ok sk ->
  (forall r, In r (rows mt) -> os2ip (firstn 4 sk) = r_oid r -> length sk = 4 + sk_size r /\ sig_size r + length m <= length sm) ->
  (nth 0 sk 0 < 128)%N <-> exists o, sign mt ref_core sk sm smlen m = Ok o.
Proof.
  intros E HE mt sk sm smlen m L4 Hb Hs. split.
  - intros Hn. destruct (in_dec N.eq_dec (os2ip (firstn 4 sk)) (map r_oid (rows mt))) as [Hin|Hout].
    + apply in_map_iff in Hin. destruct Hin as (r & Er & Hr). destruct (Hs r Hr (eq_sym Er)) as [Ls Lm].
      destruct (C22_sign_memory_safe E HE mt r sk sm smlen m Hr) as (o & Ho & _); [|exact Lm|now exists o].
      split; [exact Ls|]. split; [|exact Hb]. rewrite Er.
      assert (L : length (firstn 4 sk) = 4) by (rewrite firstn_length; lia). rewrite <- L at 3. symmetry. apply toByte_os2ip. now apply bytes_ok_firstn.
    + eexists. exact (C16_sign_rejects_unknown_oid E mt ref_core sk sm smlen m L4 Hb Hn Hout).
  - intros [o Ho]. destruct (N.lt_ge_cases (nth 0 sk 0%N) 128) as [Hl|Hg]; [exact Hl|].
    rewrite (C17_refuted E mt ref_core sk sm smlen m L4 Hg) in Ho. discriminate.
Qed.
Print Assumptions C17_sign_defined_iff_partial.
Theorem C17_open_defined_iff_partial : forall E : Env, env_ok E -> forall mt c mbuf mlen sm pk, a_core c -> 4 <= length pk -> bytes_ok pk -> bytes_ok sm -> length sm <= length mbuf ->
  (forall r, In r (rows mt) -> os2ip (firstn 4 pk) = r_oid r -> length pk = 4 + pk_size r /\ sig_size r <= length sm) ->
  (nth 0 pk 0 < 128)%N <-> exists o, sign_open mt c mbuf mlen sm pk = Ok o.
Proof.
  intros E HE mt c mbuf mlen sm pk Hc L4 Hb Bs Lm Hs. split.
  - intros Hn. destruct (in_dec N.eq_dec (os2ip (firstn 4 pk)) (map r_oid (rows mt))) as [Hin|Hout].
    + apply in_map_iff in Hin. destruct Hin as (r & Er & Hr). destruct (Hs r Hr (eq_sym Er)) as [Ls Lsm].
      destruct (open_decides HE mt r c mbuf mlen sm pk Hr Hc) as (o & Ho & _); [|exact Lsm|exact Bs|exact Lm|now exists o].
      split; [exact Ls|]. split; [|exact Hb]. rewrite Er.
      assert (L : length (firstn 4 pk) = 4) by (rewrite firstn_length; lia). rewrite <- L at 3. symmetry. apply toByte_os2ip. now apply bytes_ok_firstn.
    + eexists. exact (C16_open_rejects_unknown_oid E mt c mbuf mlen sm pk L4 Hb Hn Hout).
  - intros [o Ho]. destruct (N.lt_ge_cases (nth 0 pk 0%N) 128) as [Hl|Hg]; [exact Hl|].
    rewrite (C17_open_refuted E mt c mbuf mlen sm pk L4 Hg) in Ho. discriminate.
Qed.
Print Assumptions C17_open_defined_iff_partial.
(** both sides occur: a key of ex_row, and the same key with its first byte replaced *)
Example C17_iff_applies : forall m sm, sig_size ex_row + length m <= length sm ->
  (exists o, sign false ref_core (ex_sk 5) sm 0 m = Ok o) /\ ~ exists o, sign false ref_core (128%N :: skipn 1 (ex_sk 5)) sm 0 m = Ok o.
Proof.
  intros m sm Hm. destruct (proj1 (ex_sk_key 5%N (or_introl eq_refl))) as (Lk & Ok4 & Bk). split.
  - apply (C17_sign_defined_iff_partial ex_env ex_env_ok false (ex_sk 5) sm 0 m); [rewrite Lk; lia|exact Bk| |vm_compute; reflexivity].
    rewrite Ok4. change (os2ip (toByte (r_oid ex_row) 4)) with 1%N. intros r Hr Er.
    repeat (destruct Hr as [<-|Hr]; [first [discriminate Er|split; [exact Lk|exact Hm]]|]). destruct Hr.
  - intros [o Ho]. rewrite (C17_refuted ex_env false ref_core) in Ho; [discriminate|cbn [length]; rewrite skipn_length, Lk; unfold sk_size; lia|cbn [nth]; lia].
Qed.
