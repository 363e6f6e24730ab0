(** SHAKE of fips202.c: totality, output length, output bytes. *)
From Verif Require Import Base Lib ModelFips202.

Lemma store64_loop_length k : forall u, length (store64_loop k u) = k.
Proof. induction k as [|k IH]; intros u; cbn [store64_loop length]; [reflexivity|]. now rewrite IH. Qed.
Lemma store64_loop_ok k : forall u, bytes_ok (store64_loop k u).
Proof.
  induction k as [|k IH]; intros u; cbn [store64_loop]; constructor; [|apply IH].
  unfold u8. apply N.mod_lt. discriminate.
Qed.
Lemma lanes_to_list_length s : length (lanes_to_list s) = 25.
Proof. reflexivity. Qed.

Lemma keccak_absorb_total r p : 1 <= r -> forall fuel s m, length m < fuel ->
  exists s', keccak_absorb_loop fuel s r m p = Ok s'.
Proof.
  intros Hr. induction fuel as [|fuel IH]; intros s m Hm; [lia|]. cbn [keccak_absorb_loop].
  destruct (Nat.leb_spec r (length m)) as [Hle|Hgt].
  - apply IH. rewrite skipn_length. lia.
  - assert (Ht : length (m ++ repeat 0%N (r - length m)) = r) by (rewrite app_length, repeat_length; lia).
    rewrite wrc_ok by lia. rewrite bind_ok. rewrite (rdc_ok _ _ 0%N) by (rewrite upd_length; lia). rewrite bind_ok.
    rewrite wrc_ok by (rewrite upd_length; lia). rewrite bind_ok. eauto.
Qed.

Lemma squeeze_block r s : r <= 200 -> r mod 8 = 0 ->
  length (concat (map store64 (firstn (r / 8) (lanes_to_list s)))) = r /\
  bytes_ok (concat (map store64 (firstn (r / 8) (lanes_to_list s)))).
Proof.
  intros Hr H8. split.
  - rewrite (chunked_length 8).
    + rewrite map_length, firstn_length, lanes_to_list_length. lia.
    + apply Forall_forall. intros x Hx. apply in_map_iff in Hx. destruct Hx as [u [<- _]]. apply store64_loop_length.
  - apply Forall_concat, Forall_forall. intros x Hx. apply in_map_iff in Hx. destruct Hx as [u [<- _]]. apply store64_loop_ok.
Qed.

Lemma squeeze_spec r : r <= 200 -> r mod 8 = 0 -> forall k s,
  length (fst (keccak_squeezeblocks k s r)) = k * r /\ bytes_ok (fst (keccak_squeezeblocks k s r)).
Proof.
  intros Hr H8. induction k as [|k IH]; intros s; [split; [reflexivity|constructor]|].
  cbn [keccak_squeezeblocks]. set (s1 := KeccakF1600_StatePermute s).
  destruct (IH s1) as [Hl Hb]. destruct (keccak_squeezeblocks k s1 r) as [rest s2]. cbn [fst] in *.
  destruct (squeeze_block r s1 Hr H8) as [Hl2 Hb2]. split.
  - rewrite app_length, Hl, Hl2. reflexivity.
  - apply bytes_ok_app. auto.
Qed.

Lemma shake_total r outlen inp : 1 <= r <= 200 -> r mod 8 = 0 ->
  exists o, shake r outlen inp = Ok o /\ length o = outlen /\ bytes_ok o.
Proof.
  intros Hr H8. unfold shake.
  destruct (keccak_absorb_total r 31 (proj1 Hr) (S (length inp)) (list_to_lanes (repeat 0%N 25)) inp (le_n _)) as [s Hs].
  unfold keccak_absorb. rewrite Hs, bind_ok.
  pose proof (squeeze_spec r (proj2 Hr) H8 (outlen / r) s) as [Hl Hb].
  destruct (keccak_squeezeblocks (outlen / r) s r) as [blocks s1]. cbn [fst] in *.
  assert (Hdm : outlen = r * (outlen / r) + outlen mod r) by (apply Nat.div_mod; lia).
  assert (Hmod : outlen mod r < r) by (apply Nat.mod_upper_bound; lia).
  destruct (Nat.eqb_spec (outlen mod r) 0) as [Hz|Hnz].
  - exists blocks. split; [reflexivity|]. split; [|exact Hb]. rewrite Hl. lia.
  - pose proof (squeeze_spec r (proj2 Hr) H8 1 s1) as [Hl2 Hb2].
    destruct (keccak_squeezeblocks 1 s1 r) as [dd s2]. cbn [fst] in *.
    exists (blocks ++ firstn (outlen mod r) dd). split; [reflexivity|]. split.
    + rewrite app_length, firstn_length, Hl, Hl2. lia.
    + apply bytes_ok_app. split; [exact Hb|]. now apply bytes_ok_firstn.
Qed.
