(** Property theorems: the test vectors printed by test/vectors. *)
From Coq Require Import String.
From Verif Require Import Base ModelVectors SpecRfc SpecParams SpecVectors ProofVectors2 PropApi.
Local Existing Instance ex_env.

(** C65.  Whatever the functions of the hash library are and whatever the uninitialised buffers
    hold, test/vectors prints 21 lines, each made of SHAKE128 fingerprints of RFC 8391 values:
    the WOTS+ public key, signature and leaf of the seven hash functions, and public key and
    signature number 2^(h-1) for XMSS^MT with h = 20, d = 4 and for XMSS with h = 10. *)
Theorem C65_vectors_are_rfc8391 : forall E : Env, env_ok E -> vectors_main = Ok vectors.
Proof. intros E HE. exact (vectors_spec HE). Qed.
Print Assumptions C65_vectors_are_rfc8391.
(** The WOTS+ vectors use addresses that are not RFC 8391 addresses; on those that are, the
    definitions are the ones of RFC 8391. *)
Theorem C65_leaf_of_rfc_address : forall P sks seed L T o,
  leaf_at P (toByte L 4 ++ toByte T 8 ++ toByte 1 4 ++ toByte o 4) (toByte L 4 ++ toByte T 8 ++ toByte 0 4 ++ toByte o 4) sks seed = leaf P sks seed L T o.
Proof. exact leaf_at_rfc. Qed.
Print Assumptions C65_leaf_of_rfc_address.
Example C65_applies : env_ok ex_env /\ (exists out, vectors_main = Ok out) /\
  map (fun r => (r_oid r, r_n r, r_h r)) h10 = [(1%N, 32, 10); (4%N, 64, 10); (7%N, 32, 10); (10%N, 64, 10); (13%N, 24, 10); (16%N, 32, 10); (19%N, 24, 10)] /\
  map (fun r => (r_oid r, r_d r)) h20_4 = [(2%N, 4); (10%N, 4); (18%N, 4); (26%N, 4); (34%N, 4); (42%N, 4); (50%N, 4)].
Proof. split; [exact ex_env_ok|]. split; [eexists; exact (C65_vectors_are_rfc8391 ex_env ex_env_ok)|]. split; reflexivity. Qed.
Example C65_hex : hex [0; 10; 255; 161]%N = "000affa1"%string.
Proof. reflexivity. Qed.
