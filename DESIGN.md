# Formal model of XMSS/xmss-reference in Rocq (Coq 8.16.1)

## Layers and files

* `Base.v`: the outcome type `res` (`Ok`, `UB`, `NoFuel`), byte buffers, machine integers, the environment class `Env`.
* `Model*.v`: executable Gallina model of the C code, function by function; every definition cites file and lines.
  `ModelUtils` utils.c, `ModelHash` hash_address.c + hash.c, `ModelFips202` fips202.c, `ModelWots` wots.c,
  `ModelCommons` xmss_commons.c, `ModelCore` xmss_core.c, `ModelCoreFast` xmss_core_fast.c, `ModelParams` params.c,
  `ModelXmss` xmss.c and histories of calls, `ModelRandom` randombytes.c, `ModelUi` ui/*.c over a stdio/crash model, `ModelTests` the programs of `make test`, `ModelVectors` test/vectors.c, `ModelCost` the cores with a count of leaves, `ModelWork` and `ModelWorkFast` the reference core and verification, and the fast core, with a count of hash calls, `ModelInPlace` sign and open with one buffer for message and signed message, `ModelShared` several runs of ui/sign.c on one key file, `ModelThreads` randombytes.c in several threads.
* `Spec*.v`: specifications which never mention the model's helpers: `SpecRfc` (RFC 8391 over structured addresses and
  complete binary trees), `SpecFips202`, `SpecParams` (the standard's parameter tables), `SpecApi` (key/signature layouts),
  `SpecComp` (component-level vocabulary, custom parameter structures), `SpecRandom`, `SpecUi`, `SpecSec`/`SpecForge`
  (hash queries, places, collisions, preimages), `SpecFast` (traversal contents, the schedule's limit), `SpecCustom`
  (the core functions called directly with caller-chosen parameters).
* `Lib.v`, `Proof*.v`: lemmas.  `Prop*.v`: the property theorems only, each closed by a lemma, followed by
  `Print Assumptions` and an `Example` showing that a concrete non-trivial case meets the hypotheses.

Memory is modelled as byte lists (`list N`) with explicit offsets.  Every read/write goes through `rd`/`wr`, which
return the distinct outcome `UB` on an out-of-bounds access; out-of-range shifts and signed overflow are `UB` too.  Loops
are structural recursion or run on explicit fuel with the distinct outcome `NoFuel` (theorems say `= Ok ...`, so they
include termination).  Uninitialised automatic arrays contain an arbitrary `junk` (a function in the environment,
universally quantified in every theorem), so a theorem that fixes the result says it does not depend on stack garbage.

## Trusted base

* Coq 8.16.1's kernel, including its virtual machine (`vm_compute` is used for finite sweeps over the 77 parameter sets and
  for concrete examples).
* `Print Assumptions` reports "Closed under the global context" for **every** theorem in the `Prop*.v` files: no axiom at
  all, neither of the standard library nor of another one.  No plugin, no functor, no module type, no `Admitted`.  (A checker that
  lists every axiom in the loaded standard library also shows the seven constants of `Coq.ssr.ssrunder.Under_rel`, which come with
  the prelude's tactics; no theorem depends on them.)
* The faithfulness of `Model*.v` to the C text (read by hand, never executed).  LP64, 8-bit bytes, signed plain `char`
  promotion rules as on x86-64, 32-bit `int`.
* `SHA256`/`SHA512` of OpenSSL are parameters of the environment: arbitrary functions.  Where a theorem needs it, the premise
  `env_ok E` says that they return 32/64 bytes below 256.  The kernel's entropy source and the files of the tools are
  universally quantified inputs.

### Modelled

All of utils.c, hash_address.c, hash.c, fips202.c, wots.c, xmss_commons.c, xmss_core.c, xmss_core_fast.c, params.c, xmss.c,
randombytes.c and ui/keypair.c, ui/sign.c, ui/open.c (in both the XMSS and the XMSSMT compilation), and test/*.c (return
codes and outputs; test/speed.c's statistics for any counter readings, its conversion of seconds not).

### Not modelled

OpenSSL itself; the Makefile; the preprocessor selection of a core (both cores are models and theorems quantify over
them); test/speed.c's clock (readings are inputs, C73); `malloc` failure in the fast core and the tools; the time single instructions and the hash functions take, and the state of caches and predictors (C74 models which branches are taken, which offsets of which buffer are accessed and the lengths of hashed inputs); overlapping
caller buffers except one buffer for message and signed message (C66); threads other than in randombytes (C67: the library
has no other shared state) and processes other than several sign tools on one key file (C68).

### Simplifications

* Overlapping sign tools (C68): each process reads the key file in one step; its writes reach the file byte by byte in any
  interleaving with the others'.
* The fast core's structures are records with one list per array.  An index running out of one array is `UB`, also where in
  C it would land in the neighbouring field of the serialised key.
* When a function fails half way (rc <> 0) the caller's partially written `xmss_params` structure is not returned.
* The stdio model: buffered writes that reach the file in order at any moment up to fclose/exit; a crash leaves any prefix.
* Threads (C67): loads and stores of the int `fd` are atomic (by C11 the race is undefined), one read copies its bytes in one step.
* Lengths (`unsigned long long`) are unbounded `nat` for message lengths: messages longer than memory are not considered.

## Findings (all machine-checked as `_refuted` theorems)

1. The last signature (index 2^h-1) is computed after the key has been wiped, by both cores: it does not depend on the key
   and does not open (C02).
2. For h = 40 the five-byte index wraps, so an exhausted key signs again from index 0 (C04); full_height = 64 shifts by 64.
3. WOTS+ checksum of w = 256 parameter structures is shifted by 8 bits and loses digits (C10).
4. `xmss_xmssmt_initialize_params` never sets `padding_len`, so custom structures hash with whatever it held (C15).
5. An OID whose first byte is >= 0x80 is a signed-shift overflow (C17); smlen < sig_bytes underflows (C19); a failed open leaves the
   message in the caller's buffer (C21); an index >= 2^h is not rejected (C43).
6. Fast XMSSMT: for 40/8 and 60/12 the update budget does not reach layer 4 in time; signature number 2^20 is wrong (C27, C28).
7. The fast keypair leaves caller garbage in unused parts of the secret key (C30).  The reference `sign` returns -2 but still
   writes a signed message (C45).
8. ui/sign.c: the signature may reach the output before the key file is updated (C39); the return code of sign is ignored, so an exhausted
   key yields heap garbage on stdout with exit status 0 (C40).
9. The fast core trusts the traversal state in the key: one wrong byte makes it read outside its stack (C54).
10. With the message inside the signature area of sm (for instance m = sm) the fast core's second copy of m (xmss_core_fast.c:713, 982) copies signature bytes as the message; sign_open with m = sm rejects valid signatures, because hash_message writes its prefix over the end of the signature before the authentication path is read. The reference core signs correctly (C66).
11. ui/sign.c takes no lock: two overlapping runs on one key file use one index twice, and the slower one puts the stored index back, so that all indices used meanwhile are used again; from two signed messages with one index anybody forges (C68).
12. xmss.h and xmss_core.h document the secret key as idx, SK_SEED, SK_PRF, PUB_SEED, root; the code stores the root before PUB_SEED (C70).
13. Fast XMSSMT core, 20/4, 40/8, 60/12: the unsigned update counter is decremented once per exchanged tree and wraps below zero when three trees end in one call; that call then finishes all pending tree-hash instances at once (7 leaves at the 2^18-th signature) instead of at most (h/d)/2 + 2 = 4 (C71). The signature is still right; only the bound on the work is lost.
14. test/speed.c sorts the last absolute counter reading in with the durations (`median(t, tlen)` instead of `tlen-1`): with the 16 readings it takes, the printed median is halfway between the median and the next duration; with XMSS_SIGNATURES=2 it is half the counter value, and with 1 the average divides by zero (C73).

## Plan per property (proof technique)

| id | what is modelled | how it will be proved |
|----|------------------|-----------------------|
| C01 | xmss.c, xmss_core.c, xmss_commons.c, wots.c, hash.c | refinement of sign/open to the RFC spec, then spec-level round trip |
| C02 | same, last index | expected false (key wiped before use): prove the signature does not depend on the key, and a `_refuted` witness |
| C03 | state machine of sign calls | induction over the history |
| C04 | same | induction over the history; expected false for h=40 (5 index bytes): `_refuted` witness + proof for other sets |
| C05 | sign | refinement |
| C06 | sign, treehash | refinement to RFC spec |
| C07 | sign_open | refinement to RFC spec |
| C08 | keypair | refinement |
| C09 | wots.c | refinement + chain composition law |
| C10 | base_w, checksum | number theory on digits; expected false for w=256 |
| C11 | base_w, checksum | loop invariant |
| C12 | utils.c | induction |
| C13 | params.c tables | total decision lists, finite sweep lifted over all strings/OIDs |
| C14 | initialize_params | finite sweep over accepted OIDs |
| C15 | initialize_params | expected false (padding_len) |
| C16 | xmss.c | case analysis |
| C17 | xmss.c OID decoding | expected false: signed shift overflow for bytes >= 0x80; proved defined exactly when the first byte is below 0x80 |
| C18 | sign_open | model returns `Ok` under the stated buffer sizes |
| C19 | sign_open | expected false: `UB` |
| C20,C21 | sign_open failure path | direct; C21 expected false |
| C22 | sign | model returns `Ok`, frame |
| C23 | treehash | stack invariant by induction on leaves |
| C24 | compute_root | induction on height |
| C25 | l_tree | in-place loop invariant |
| C26 | xmss_core_fast.c, d = 1 | BDS invariant (auth/keep/treehash/retain/stack) incl. deadline argument, any height |
| C27 | xmss_core_fast.c, d > 1 | BDS invariant per layer + update-scheduling argument |
| C28 | same | expected false for 40/8 and 60/12 |
| C29 | (de)serialize | layout lemma |
| C30 | keypair | reference proved, fast expected false |
| C31 | sign | junk/initial buffer independence from refinement |
| C32,C33 | hash.c | injectivity of encodings |
| C34 | fips202.c | symbolic equality of unrolled rounds with theta/rho/pi/chi/iota, sponge induction |
| C35 | core_hash | sweep |
| C36,C37 | compute_root, l_tree, wots | collision extraction by induction |
| C38 | randombytes.c | induction over read results |
| C39-C41 | ui/*.c | trace model with stdio buffering |
| C42 | sign_open | refinement |
| C43 | sign_open | expected false; positive part: such a message contains a collision of the raw hash function with key generation's last hash (the tree address differs) |
| C44,C45 | sign error path | direct |
| C46-C48 | ui/*.c | crash-state invariant over the stdio model; refinement to the API theorems |
| C49 | both signers, sign_open | every released signature is the RFC's; chain positions shown by it; C36/C37 extraction against an honest signature |
| C50 | both signers | layer parts depend on tree and leaf only |
| C51 | xmss_core_fast.c sign on arbitrary keys | inversion of every step of a returning call (frame of each write), induction over the history |
| C52 | both cores | each signed message is the RFC's, a function of key material, index and message |
| C53 | both cores | the same |
| C54 | fast core | expected false: a concrete key, computed |
| C55 | both cores called directly, any parameter structure | the refinement lemmas are generic in the parameters; one invariant per core, induction over the history |
| C56 | xmss_commons.c open | the same refinement lemma |
| C57 | both cores, arbitrary key contents | reference: the refinement lemmas cover every key; fast: inversion as for C51 |
| C58 | `runs`: tool runs each stopped in any state `disk_reach` allows, on the key file the previous one left; either core (fast core: any traversal state) | induction over the history with an invariant closed under torn writes (prefix of the new key, suffix of the old one); big-endian counters cannot go back when torn |
| C59 | as C58 with the reference core from a key file made by `ui_keypair` | C58's invariant gives the fields; refinement to `mt_sign`, then C47 |
| C60 | as C58 with the fast core: key file torn behind the index | refuted: the signature bytes behind the lowest WOTS+ signature are a function of the stored state (inversion of the model's sign function); the torn file is reachable; binding of authentication paths (C36) gives rejection or a collision; that the later call returns: for odd i, `ProofStale` shows that every step of the scheduler stays within the stored arrays whatever they hold; one small run evaluated by `vm_compute` as the example |
| C61 | both signers, sign_open on a changed signed message | C49's extraction, strengthened: equal layer roots and equal chain ends force equal signatures or a collision (binding of paths, WOTS+ chains and the randomiser) |
| C62 | `ModelTests`: each main as a function of the random stream | loops by invariant over the signer's live states; the flipped message through C61, the last round through C02; the XMSS_TEST_INVALIDSIG variant (a bit of every hash flipped) through C61 with the index the flipped signature names; expected false for test/xmss_fast (1024 signatures use up the key) |
| C63 | both cores on the same random bytes; reference core on a key with any bytes behind the RFC part | the live states of both cores give the same answers; the reference refinement lemma holds for any trailing bytes |
| C64 | as C63, then the fast core again | expected false: the reference core leaves the stored traversal state behind; the path released is a function of that state (C60), and C36 gives rejection or a collision; that it returns for odd i as in C60; a run on a small tree evaluated |
| C65 | `ModelVectors`: test/vectors.c by what it prints | WOTS+ and L-tree on addresses with five arbitrary words (`ProofWotsAny`, `ProofVectors`), key generation and signing by the C01/C24 lemmas, SHAKE128 by C34, the loops over the parameter table |
| C66 | `ModelInPlace`: the sign and open functions with reads and writes through m and sm in one buffer | The reference core reads m once, before anything else: simulation (`ProofInPlace`). Refuted for the fast core (it copies m again when the signature stands there) and for opening with m = sm (the hash prefix is written over the end of the signature, which is then verified); acceptance would break the hash by the C37 lemmas |
| C67 | `ModelThreads`: randombytes as a small-step machine, one access to the shared descriptor or system call per step, any schedule, any answers of the system | Safety: invariant that maps every filled buffer byte to the number of the device byte it came from (`ProofThreads`). Termination: after recovery no new -1 is stored, some thread is always about to store a descriptor while fd is -1, then a rank per thread decreases (`ProofThreads2`) |
| C68 | `ModelShared`: any number of ui/sign.c processes on one key file, each an instance of the stdio model of `ModelUi`, sharing the file's bytes; `SpecReuse`: the forger's function, on public data only | Refuted: the schedule in which one run reads first and writes last, built from `disk_reach` runs lifted to the shared file (`ProofShared`); the forgery: chain additivity gives every string of the wanted WOTS+ signature, so the forged message is the one the signer would have made with randomiser R (`ProofReuse`), which opens. |
| C69 | `sign_open` of `ModelXmss` under two public keys; `SpecOwner`: all strings two verifications hash | The last hash of each accepted verification has the root as its value (`top_query`); equal roots give equal strings or a collision; equal strings give equal keys, these equal PRF inputs or a collision; equal PRF inputs give equal seeds and addresses, and the top address determines the parameter set (`ProofOwner`; sweep over all pairs of the 77 sets). |
| C70 | keys of `ModelXmss` after any history, either core; `SpecLayout`: the formats the headers document | Exact keys from `signer_key`/`signer_run`; the documented secret key differs in the order of root and PUB_SEED: equal iff the two strings are equal. |
| C71 | `ModelCost`: the two cores and the API wrappers again with a counter in gen_leaf_wots (the unit of work; hashes outside leaves are not counted); erasing the counter gives the model (proved for all inputs) | Cost logic `runs` (bound and exact count) over the counted program, for any key contents; the excess when the counter wraps from the traversal invariant of C27 (`loop_step`, the work `tw` of the instances re-initialised by the round). |
| C72 | `ModelWork`: hash.c, wots.c, xmss_commons.c, xmss_core.c and the API wrappers again with a counter in core_hash (each call counts one whatever its length); erasing the counter gives the model (proved for all inputs). The fast core is counted in C75 | Exact counts with `runs`: 3 per chain step, 4 per node; the tree hash by an invariant on the heights on its stack (distinct powers of two adding up to the leaves seen, so one remains at 2^h); bound on verification for any bytes and any parameter structure; sign + open constant because both walk the digits of the same roots (`layer_msg`) and a digit and its complement add up to w-1. Running time is not modelled: only the number of calls |
| C73 | `ModelSpeed`: cmp_llu, median, average, print_results of test/speed.c on 64-bit words; qsort as insertion sort by cmp_llu (any sort gives the same array, as equal keys are equal words: `sorted_unique`) | Telescoping sum for the average; the last reading is at least every duration, so it sorts to the end, which gives the printed median exactly |
| C74 | `ModelLeak`, `ModelLeakFast`: every function of both cores again, returning its result and the list of observable events (branch outcomes, loop turns, offset and length of every access, length of every hashed input; a chain of a one-time signature is one nested event) | Erasure gives the model back (ProofLeak, ProofLeak3). A relational logic (`lrel`): two runs with equal control data and data of equal lengths have equal traces and equal control data afterwards (ProofLeak2, ProofLeak4, ProofLeak6); keys are related by a mask of public bytes, which loading and storing the state preserve (ProofLeak5), so the statement extends to histories (ProofLeak7). For the reference core the hidden part is public: the chains run for the RFC digits of each layer's message (ProofLeak8, ProofLeak9), which the verifier computes from public key and signed message, so the complete trace of a key's life has a simulator that sees no secret (ProofLeak10). The same for XMSS in the fast core (ProofLeak11, ProofLeak12), for the whole life of a key. XMSSMT in the fast core signs the roots of trees before they are used: the chains of a call are those of its own message at layer 0 and those of the next signed message at the layers whose tree was just completed (ProofLeak13, ProofLeak14), so the simulator of a call is given the next signed message as well (ProofLeak15, ProofLeak16). That this cannot be avoided is C74_refuted_fast_xmssmt: a hash function, two keys with one public key and the same 32 signed messages, and different traces of the 32nd call (ProofLeak17). Missing: 40/8 and 60/12 beyond index 2^20 |
| C75 | `ModelWorkFast`: every hashing function of xmss_core_fast.c and its API wrappers with the counter of `ModelWork`; erasing the counter gives the model (proved for all inputs) | Upper bounds by the `runs` calculus of C71/C72 with the update loops' budget as invariant, for any state bytes; `dom` relates the leaf count of C71 and the hash count of the same run. Partial: the bound leaves out the calls of 20/4, 40/8, 60/12 at which many trees end at once; there it is false (`C75_refuted`: the wrapped update counter of C71 makes call 2^18 and 2^19 exceed it, for every environment, randomness and history) |
