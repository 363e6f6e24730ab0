(** A hash function that mixes its input, to run the fast core on a small tree. *)
From Verif Require Import Base Lib ModelUtils ModelParams ModelCore ModelCoreFast ModelCommons SpecRfc SpecParams SpecApi SpecComp SpecFast SpecCustom ProofUtils ProofHash.

Definition mix (x : bytes) : N := fold_left (fun a b => N.land (a * 5 + b + 1) 65535) x 5%N.
Definition mix32 (x : bytes) : bytes := let v := mix x in concat (repeat [N.land (N.shiftr v 8) 255; N.land v 255] 16).
Definition mix_env : Env := {| sha256 := mix32; sha512 := fun x => mix32 x ++ mix32 x; junk := fun _ => 0%N |}.
Lemma land255 v : (N.land v 255 < 256)%N.
Proof. change 255%N with (N.ones 8). rewrite N.land_ones. apply N.mod_upper_bound. discriminate. Qed.
Lemma mix32_ok x : length (mix32 x) = 32 /\ bytes_ok (mix32 x).
Proof.
  unfold mix32. cbv zeta. split; [reflexivity|]. cbn [repeat concat app].
  repeat (constructor; [apply land255|]). constructor.
Qed.
Lemma mix_env_ok : env_ok mix_env.
Proof.
  intros x. cbn [sha256 sha512 mix_env]. destruct (mix32_ok x) as [H1 H2]. split; [now split|].
  split; [rewrite app_length; lia|]. apply bytes_ok_app. now split.
Qed.
Local Existing Instance mix_env.

(** SHA2, n = 24, w = 4, one tree of height 3 *)
Definition t_cu : custom := mkCustom SHA2 24 2 24 3 1.
Definition t_in : xmss_params := mkParams 0 24 4 4 0 0 0 0 0 3 0 1 0 0 0 0 0.
Definition t_msg : bytes := [1; 2]%N.
Definition t_sm : bytes := repeat 0%N 2600.
Definition t_sign p sk := match fast_xmss_core_sign p sk t_sm 0 t_msg with Ok o => o | _ => mkSign 9 [] [] 0 end.
(** does the signed message open: 0 yes, -1 no, 9 undefined *)
Definition t_open p pk (o : sign_out) : Z := match xmssmt_core_sign_open p (repeat 0%N 2600) (firstn (so_smlen o) (so_sm o)) pk with Ok oo => oo_rc oo | _ => 9%Z end.
(** three signatures; then one with the third key into which only the index of the third
    signature's new key was stored; and one with the complete new key *)
Definition t_story : option (nat * list Z * list Z) :=
  match xmss_xmssmt_initialize_params fast_core_sk_bytes t_in with
  | Ok (_, p) =>
    match fast_xmss_core_keypair p (repeat 0%N 48) (repeat 0%N (ModelParams.sk_bytes p)) (fun i => N.of_nat i) with
    | Ok (_, pk, sk) =>
      let o1 := t_sign p sk in let o2 := t_sign p (so_sk o1) in let o3 := t_sign p (so_sk o2) in
      let torn := firstn 4 (so_sk o3) ++ skipn 4 (so_sk o2) in
      let o4 := t_sign p torn in let o4' := t_sign p (so_sk o3) in
      Some (cu_sig t_cu, [so_rc o1; so_rc o2; so_rc o3; so_rc o4; so_rc o4'], map (t_open p pk) [o1; o2; o3; o4; o4'])
    | _ => None
    end
  | _ => None
  end.
Lemma t_story_eq : t_story = Some (2524, [0; 0; 0; 0; 0]%Z, [0; 0; 0; -1; 0]%Z).
Proof. vm_compute. reflexivity. Qed.
