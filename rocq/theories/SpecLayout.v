(** The key formats as the headers document them. *)
From Verif Require Import Base SpecRfc SpecParams.

(** "(32bit) idx" (xmss.h:8) and "(ceil(h/8) bit) idx" (xmss.h:36, meaning bytes) *)
Definition index_width (r : row) : nat := if r_mt r then (r_h r + 7) / 8 else 4.
(** "Format pk: [OID || root || PUB_SEED]" (xmss.h:9, 37) *)
Definition documented_pk (r : row) (rt seed : bytes) : bytes := toByte (r_oid r) 4 ++ rt ++ seed.
(** "Format sk: [OID || idx || SK_SEED || SK_PRF || PUB_SEED || root]" (xmss.h:8, 36; xmss_core.h:17, 43 without the OID) *)
Definition documented_sk (r : row) (i : N) (sk_seed sk_prf seed rt : bytes) : bytes :=
  toByte (r_oid r) 4 ++ toByte i (index_width r) ++ sk_seed ++ sk_prf ++ seed ++ rt.
(** "Format sk: [index || SK_SEED || SK_PRF || root || PUB_SEED]" (xmss_core.h:52, of xmssmt_core_seed_keypair), behind the OID *)
Definition documented_seed_sk (r : row) (i : N) (sk_seed sk_prf rt seed : bytes) : bytes :=
  toByte (r_oid r) 4 ++ toByte i (index_width r) ++ sk_seed ++ sk_prf ++ rt ++ seed.
