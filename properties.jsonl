{"id": "C01", "title": "Signed messages verify (reference implementation)", "statement": "For a key pair produced by keypair, signing any message while the key's index is below the last one returns 0, and opening the produced signed message under the public key returns 0 and yields exactly the original message and its length.", "quantifier": "every supported parameter set, every randomness, every index 0 <= idx < 2^h - 1, every message of every length, every initial content of the output buffers, every hash primitive", "why_tests_cant": "2^h indices (up to 2^60), unbounded messages and all seeds; tests try 16 signatures of one parameter set", "anchors": ["xmss.c:xmss_sign,xmss_sign_open,xmssmt_sign,xmssmt_sign_open", "xmss_core.c:xmssmt_core_sign", "xmss_commons.c:xmssmt_core_sign_open"]}
{"id": "C02", "title": "The last signature of a key verifies too", "statement": "The call of sign that consumes the last index (2^h - 1) and returns 0 produces a signed message that opens successfully under the public key.", "quantifier": "every parameter set, key and message at index 2^h - 1", "why_tests_cant": "needs a key driven to its very last index; reached only after 2^h - 1 signatures", "anchors": ["xmss_core.c:xmssmt_core_sign:212-223", "xmss_core_fast.c:xmss_core_sign", "xmss_core_fast.c:xmssmt_core_sign"]}
{"id": "C03", "title": "No one-time key is ever used twice", "statement": "Over any history of sign calls on one secret key (starting fresh), the k-th successful call carries index k-1 in its signature, so two successful calls never carry the same index.", "quantifier": "every history (sequence of messages) of any length up to key exhaustion, every parameter set", "why_tests_cant": "histories are unbounded; index reuse breaks the scheme", "anchors": ["xmss_core.c:xmssmt_core_sign", "xmss_core_fast.c:xmss_core_sign,xmssmt_core_sign"]}
{"id": "C04", "title": "An exhausted key stays exhausted", "statement": "After the 2^h-th successful signature every further call of sign returns -2, however many calls follow and whatever the messages.", "quantifier": "every history after exhaustion, every parameter set", "why_tests_cant": "the state after 2^h signatures is out of reach of tests for h >= 20", "anchors": ["xmss_core.c:xmssmt_core_sign:195-223", "xmss_core_fast.c:xmssmt_core_sign"]}
{"id": "C05", "title": "Signing changes only the index in the secret key (reference)", "statement": "A successful sign call below the last index increments the big-endian index stored in the secret key by exactly one and leaves every other byte of the secret key (seeds, PRF key, root, public seed) unchanged.", "quantifier": "every secret key, every index below the last, every message", "why_tests_cant": "all keys and all carries of the index encoding", "anchors": ["xmss_core.c:xmssmt_core_sign", "utils.c:ull_to_bytes"]}
{"id": "C06", "title": "Signatures are the RFC 8391 signatures", "statement": "The bytes produced by sign below the last index are exactly index || R || (WOTS+ signature || authentication path) per layer || message as defined by RFC 8391 for the key, index and message.", "quantifier": "every supported parameter set, key, index below the last, message", "why_tests_cant": "the specification is a function on an infinite domain", "anchors": ["xmss_core.c:xmssmt_core_sign,treehash", "wots.c:wots_sign", "hash.c"]}
{"id": "C07", "title": "Verification decides exactly RFC 8391 validity", "statement": "Opening a signed message of at least signature length returns 0 if and only if the root recomputed from it per RFC 8391 equals the root in the public key, and returns -1 otherwise.", "quantifier": "every public key, every byte string of at least sig_bytes bytes, every parameter set", "why_tests_cant": "all byte strings, including adversarial ones", "anchors": ["xmss_commons.c:xmssmt_core_sign_open,compute_root,l_tree", "wots.c:wots_pk_from_sig"]}
{"id": "C08", "title": "Key generation is RFC 8391 key generation", "statement": "keypair returns 0, the public key is (OID ||) root || PUB_SEED where root is the Merkle root of the top-most tree, and the secret key is (OID ||) 0-index || SK_SEED || SK_PRF || root || PUB_SEED with the seeds taken in order from the random source.", "quantifier": "every randomness, every parameter set", "why_tests_cant": "all seeds, all tree heights", "anchors": ["xmss_core.c:xmssmt_core_seed_keypair,xmssmt_core_keypair", "xmss.c:xmss_keypair,xmssmt_keypair"]}
{"id": "C09", "title": "WOTS+ signatures recover the WOTS+ public key", "statement": "The public key recomputed from a WOTS+ signature on a message equals the public key generated from the same seeds and address, whatever was left in the scratch words of the address.", "quantifier": "every message, seed, public seed, address, Winternitz parameter in {4,16,256}, hash", "why_tests_cant": "all messages and addresses; the test draws one random sample", "anchors": ["wots.c:wots_pkgen,wots_sign,wots_pk_from_sig,gen_chain,expand_seed"]}
{"id": "C10", "title": "WOTS+ message encoding is domination free", "statement": "For two different n-byte messages, some chain length of the second is strictly smaller than the corresponding one of the first, so knowing the signature of one message never suffices to advance chains to a signature of another.", "quantifier": "every pair of different messages, every Winternitz parameter accepted by parameter initialisation", "why_tests_cant": "quadratically many pairs of 2^256 messages", "anchors": ["wots.c:chain_lengths,wots_checksum,base_w", "params.c:xmss_xmssmt_initialize_params"]}
{"id": "C11", "title": "WOTS+ chain lengths are the base-w digits and in range", "statement": "The chain lengths derived from a message are its base-w digits followed by the base-w digits of the checksum, each between 0 and w-1, and there are exactly len of them.", "quantifier": "every message, w, n", "why_tests_cant": "all messages", "anchors": ["wots.c:base_w,wots_checksum,chain_lengths"]}
{"id": "C12", "title": "Integer/byte conversions are inverse", "statement": "Encoding an integer to k big-endian bytes and decoding gives the integer modulo 2^(8k) for k <= 8, decoding then encoding gives back the bytes, and encodings of equal-length are order preserving and injective below 2^(8k).", "quantifier": "every 64-bit integer, every byte string up to 8 bytes", "why_tests_cant": "2^64 values", "anchors": ["utils.c:ull_to_bytes,bytes_to_ull"]}
{"id": "C13", "title": "Parameter names, OIDs and parameters agree", "statement": "A parameter-set name is accepted if and only if it is one of the RFC 8391 / SP 800-208 names; the returned OID is accepted by OID parsing and yields the hash function, n, height and number of layers spelled in the name; different names give different OIDs; any other OID is rejected with -1.", "quantifier": "every string, every 32-bit OID", "why_tests_cant": "all strings and all 2^32 OIDs", "anchors": ["params.c:xmss_str_to_oid,xmssmt_str_to_oid,xmss_parse_oid,xmssmt_parse_oid"]}
{"id": "C14", "title": "Derived parameter sizes follow the RFC formulas", "statement": "For every accepted OID the derived values (log w, len1, len2, len, index bytes, signature size, key sizes, tree height) equal the RFC formulas as mathematical integers (no 32-bit wrap-around), and full height is exactly d times tree height.", "quantifier": "every accepted OID, reference and fast secret-key sizes", "why_tests_cant": "needs the formula, not samples; wrap-around is silent", "anchors": ["params.c:xmss_xmssmt_initialize_params", "xmss_core.c:xmss_xmssmt_core_sk_bytes", "xmss_core_fast.c:xmss_xmssmt_core_sk_bytes"]}
{"id": "C15", "title": "Parameter initialisation fills in the remainder of the structure", "statement": "Given full_height, n, d, func, wots_w (and optionally bds_k), parameter initialisation determines every remaining field from them: two structures agreeing on these inputs agree on all fields afterwards.", "quantifier": "every pair of structures with equal inputs", "why_tests_cant": "uninitialised fields look fine by luck", "anchors": ["params.c:xmss_xmssmt_initialize_params", "params.h"]}
{"id": "C16", "title": "The OID in a key selects the same parameter set everywhere", "statement": "keypair with an accepted OID stores it big-endian in both keys, and sign and open on those keys run with the parameters of that OID; with an unaccepted OID keypair, sign and open return -1 and modify nothing.", "quantifier": "every OID, every key buffer", "why_tests_cant": "all OIDs and buffers", "anchors": ["xmss.c"]}
{"id": "C17", "title": "Reading the OID of an arbitrary key is well defined", "statement": "sign and open have defined behaviour for every content of the four OID bytes.", "quantifier": "every 4-byte OID prefix", "why_tests_cant": "undefined behaviour is invisible to tests", "anchors": ["xmss.c:xmss_sign,xmss_sign_open,xmssmt_sign,xmssmt_sign_open"]}
{"id": "C18", "title": "Verification is memory safe on any full-length input", "statement": "Opening any byte string of at least sig_bytes bytes under any public key never reads or writes outside the given buffers or its own arrays, never shifts out of range, and terminates.", "quantifier": "every public key, every sm with smlen >= sig_bytes, every supported parameter set", "why_tests_cant": "adversarial inputs are arbitrary", "anchors": ["xmss_commons.c", "wots.c", "hash.c"]}
{"id": "C19", "title": "Truncated inputs are rejected safely", "statement": "Opening a byte string shorter than a signature returns an error without accessing memory outside the buffers.", "quantifier": "every smlen < sig_bytes", "why_tests_cant": "adversarial lengths", "anchors": ["xmss_commons.c:xmssmt_core_sign_open:157"]}
{"id": "C20", "title": "Failed verification returns no message", "statement": "When opening fails with -1, the reported message length is 0 and the first smlen - sig_bytes bytes of the output buffer are zero.", "quantifier": "every rejected input", "why_tests_cant": "all rejected inputs", "anchors": ["xmss_commons.c:xmssmt_core_sign_open:205-211"]}
{"id": "C21", "title": "Failed verification leaves no unverified message bytes behind", "statement": "When opening fails, the output buffer contains no copy of the rejected message.", "quantifier": "every rejected input", "why_tests_cant": "tests check only the return code", "anchors": ["xmss_commons.c:xmssmt_core_sign_open:162,205-211"]}
{"id": "C22", "title": "Signing is memory safe (reference core, arbitrary key contents)", "statement": "Signing with a secret key of sk_bytes bytes into a buffer of sig_bytes + mlen bytes never accesses memory outside these buffers or its own arrays, terminates, and changes no byte of a larger output buffer beyond sig_bytes + mlen.", "quantifier": "every secret key content, every message, every supported parameter set", "why_tests_cant": "undefined behaviour is invisible to tests", "anchors": ["xmss_core.c", "wots.c", "hash.c", "xmss_commons.c:l_tree"]}
{"id": "C23", "title": "Roots and authentication paths come from the complete binary hash tree", "statement": "For every height and leaf, the stack-based tree hash returns the root of the complete binary tree over all leaves and the siblings of the nodes on the path from the leaf.", "quantifier": "every tree height, every leaf index, every leaf and node function", "why_tests_cant": "all heights and leaves", "anchors": ["xmss_core.c:treehash"]}
{"id": "C24", "title": "A leaf and its authentication path recompute the root", "statement": "Recomputing the root from leaf i and the siblings on its path gives the root of the complete tree, for every leaf i.", "quantifier": "every height >= 1, every leaf", "why_tests_cant": "all leaves", "anchors": ["xmss_commons.c:compute_root"]}
{"id": "C25", "title": "The in-place L-tree is the specified unbalanced tree", "statement": "Compressing a WOTS+ public key in place gives the value of the specified L-tree (pairwise hashing, odd node lifted) for every number of nodes.", "quantifier": "every number of chains, every node values", "why_tests_cant": "aliasing between reads and writes for every length", "anchors": ["xmss_commons.c:l_tree"]}
{"id": "C26", "title": "Fast implementation produces the reference signatures (XMSS)", "statement": "From the same randomness the fast implementation generates the same public key as the reference, and for every history of messages its k-th signature is byte-for-byte the reference's k-th signature, for all indices below the last.", "quantifier": "every XMSS height, every BDS parameter k leaving at least as many updates as active instances, every history", "why_tests_cant": "the traversal state depends on the whole history; 2^20 steps", "anchors": ["xmss_core_fast.c:xmss_core_keypair,xmss_core_sign,bds_round,bds_treehash_update,treehash_update,treehash_init"]}
{"id": "C27", "title": "Fast implementation produces the reference signatures (XMSSMT)", "statement": "From the same randomness the fast multi-tree implementation generates the same public key as the reference, and for every history its signatures are byte-for-byte those of the reference for all indices below the last.", "quantifier": "every accepted XMSSMT parameter set, every history", "why_tests_cant": "up to 2^60 steps; tree swaps and update scheduling across layers", "anchors": ["xmss_core_fast.c:xmssmt_core_keypair,xmssmt_core_sign,bds_state_update,deep_state_swap"]}
{"id": "C28", "title": "Every fast XMSSMT parameter set has a fully built next tree when it is needed", "statement": "Whenever a tree of some layer is used up, the fast implementation has already built the complete next tree of that layer, so the root it certifies is the root of that tree.", "quantifier": "every accepted XMSSMT parameter set, every layer, every index", "why_tests_cant": "first relevant event is after 2^20 signatures for some sets", "anchors": ["xmss_core_fast.c:xmssmt_core_sign:912-965"]}
{"id": "C29", "title": "The traversal state survives being stored in the secret key", "statement": "Writing the traversal state into the secret key and reading it back gives the same state, touches none of the seeds, root or index, and uses exactly sk_bytes bytes.", "quantifier": "every state within the field ranges, every parameter set", "why_tests_cant": "all states", "anchors": ["xmss_core_fast.c:xmssmt_serialize_state,xmssmt_deserialize_state,xmss_xmssmt_core_sk_bytes"]}
{"id": "C30", "title": "The generated secret key depends on the randomness only", "statement": "Two keypair calls that draw the same randomness produce the same secret key bytes whatever the key buffers contained before.", "quantifier": "every initial buffer content, reference and fast", "why_tests_cant": "uninitialised memory is invisible to tests", "anchors": ["xmss_core.c:xmssmt_core_seed_keypair", "xmss_core_fast.c:xmss_core_keypair,xmssmt_core_keypair"]}
{"id": "C31", "title": "Signing is deterministic", "statement": "Signature bytes and updated key depend only on the secret key and message: not on the previous contents of the output buffer or of uninitialised automatic storage.", "quantifier": "every pair of output buffers and stack contents", "why_tests_cant": "uninitialised memory is invisible to tests", "anchors": ["xmss_core.c:xmssmt_core_sign", "hash.c"]}
{"id": "C32", "title": "Hash roles are domain separated", "statement": "The byte strings hashed for chain steps, tree nodes, message digests, PRF and key generation can never coincide across roles, and within a role the hashed string determines its inputs.", "quantifier": "every pair of calls in any roles, every input, every parameter set", "why_tests_cant": "all pairs of inputs", "anchors": ["hash.c"]}
{"id": "C33", "title": "Hash addresses are injective", "statement": "The 32-byte encoding of an address determines all its fields, and the positions of a key (layer, tree, kind, key pair, chain, step / height, index) get pairwise different encodings.", "quantifier": "every pair of addresses with fields in range", "why_tests_cant": "all pairs", "anchors": ["hash.c:addr_to_bytes", "hash_address.c"]}
{"id": "C34", "title": "SHAKE128/256 are the FIPS 202 functions", "statement": "The built-in SHAKE128 and SHAKE256 return the first outlen bytes of the FIPS 202 extendable-output function of the input.", "quantifier": "every input of every length, every output length, every permutation state", "why_tests_cant": "all lengths relative to the rate, all 2^1600 states", "anchors": ["fips202.c"]}
{"id": "C35", "title": "Every accepted OID has a working hash function", "statement": "For every accepted OID every hash call made while generating keys, signing and verifying is supported (the internal hash never reports an unsupported combination) and outputs n bytes.", "quantifier": "every accepted OID, every input", "why_tests_cant": "error returns are ignored by callers, so tests do not notice", "anchors": ["hash.c:core_hash", "params.c"]}
{"id": "C36", "title": "A public key binds each one-time key (tree binding)", "statement": "If for the same public key, layer, tree and index two different leaf values (or two different WOTS+ public keys) both lead to the same root, the two verification runs exhibit two different inputs of the node hash at one and the same address with equal output.", "quantifier": "every pair of leaves, every pair of authentication paths, every height, every hash", "why_tests_cant": "cryptographic extraction over all adversarial inputs", "anchors": ["xmss_commons.c:compute_root,l_tree"]}
{"id": "C37", "title": "A forgery breaks the hash", "statement": "If a signed message opens successfully under an honest public key but is not the one given out for that index (another message, or the same message with another signature), then comparing it with the honest signature yields either a message-hash collision, or a collision of the node or chain hash at one address, or a preimage of a chain value that the honest signature did not reveal.", "quantifier": "every adversarial signed message, every honest key and signed message", "why_tests_cant": "quantifies over adversaries", "anchors": ["xmss_commons.c:xmssmt_core_sign_open", "wots.c"]}
{"id": "C38", "title": "randombytes fills exactly the requested bytes", "statement": "Whatever short, failing or interrupted reads occur, randombytes, once it returns, has filled exactly the requested number of bytes with consecutive bytes of the random device and nothing beyond.", "quantifier": "every sequence of read results, every length", "why_tests_cant": "every schedule of short reads", "anchors": ["randombytes.c"]}
{"id": "C39", "title": "The command-line signer never releases a signature before its key update is durable", "statement": "At every crash point of the sign tool, if any byte of the signature has reached the output then the key file already holds the updated index.", "quantifier": "every crash point, every order of stdio flushes allowed by C", "why_tests_cant": "crash points and buffering schedules", "anchors": ["ui/sign.c:86-90"]}
{"id": "C40", "title": "The command-line signer reports failure", "statement": "When signing fails (exhausted key) the sign tool reports failure and emits no signature bytes.", "quantifier": "every key file, every message", "why_tests_cant": "requires an exhausted key", "anchors": ["ui/sign.c:84-101"]}
{"id": "C41", "title": "The command-line tools reject unknown parameter names and OIDs", "statement": "keypair with an unknown name, and sign/open with a key file of unknown OID, exit with a non-zero status without producing keys, signatures or key-file changes.", "quantifier": "every argument string and key file", "why_tests_cant": "all strings", "anchors": ["ui/keypair.c", "ui/sign.c", "ui/open.c"]}
{"id": "C42", "title": "Verification depends only on the signed message and the public key", "statement": "The return code, message and length produced by opening do not depend on the previous contents of the output buffer or on uninitialised storage, and opening does not modify the signed message or public key.", "quantifier": "every pair of output buffers", "why_tests_cant": "uninitialised memory is invisible to tests", "anchors": ["xmss_commons.c:xmssmt_core_sign_open"]}
{"id": "C43", "title": "Out-of-range indices are rejected", "statement": "A signed message whose index field is 2^h or more is never accepted.", "quantifier": "every public key and every signed message with index >= 2^h", "why_tests_cant": "adversarial public keys and signatures", "anchors": ["xmss_commons.c:xmssmt_core_sign_open:160,171-173"]}
{"id": "C44", "title": "An exhausted key is wiped", "statement": "When sign returns -2 the secret key has all its seeds, PRF key, root and traversal state zeroed and its index set to all ones.", "quantifier": "every key content with index >= 2^h, every message", "why_tests_cant": "out of reach of tests for large h", "anchors": ["xmss_core.c:xmssmt_core_sign:212-223", "xmss_core_fast.c"]}
{"id": "C45", "title": "A refused signature leaves the output untouched", "statement": "When sign returns -2 neither the output buffer nor the reported length changes.", "quantifier": "every exhausted key, every message and buffer", "why_tests_cant": "rare path", "anchors": ["xmss_core.c:xmssmt_core_sign:189-192", "xmss_core_fast.c:xmss_core_sign"]}
{"id": "C46", "title": "A torn key-file update never moves the index back", "statement": "Whatever prefix of the sign tool's key-file update has reached the disk when it crashes, the key file still holds a well-formed key of the same parameter set with unchanged seeds and root, whose index is at least the old one and at most the last one.", "quantifier": "every crash point of the sign tool, every flush schedule, every key file and message", "why_tests_cant": "crash points and partial writes with carries", "anchors": ["ui/sign.c:86-90", "utils.c:ull_to_bytes"]}
{"id": "C47", "title": "The open tool's exit status is the RFC 8391 verdict", "statement": "On a key file starting with a public key and a signed-message file of at least signature length the open tool exits with 0 and prints success iff the signature is RFC 8391 valid, otherwise exits non-zero and prints failure.", "quantifier": "every key file and signed-message file", "why_tests_cant": "all inputs", "anchors": ["ui/open.c", "xmss.c:xmss_sign_open", "xmss_commons.c:xmssmt_core_sign_open"]}
{"id": "C48", "title": "The command-line tools interoperate", "statement": "Starting from the key file written by the keypair tool for any supported parameter name, every sequence of fewer than 2^h completed runs of the sign tool succeeds and each output carries its message and opens under the original key file.", "quantifier": "every parameter name, randomness, sequence of messages", "why_tests_cant": "all histories", "anchors": ["ui/keypair.c", "ui/sign.c", "ui/open.c"]}
{"id": "C49", "title": "No forgery after any history", "statement": "Whatever a forger presents after having seen every signed message a signer (reference or fast) has given out: if it opens under the signer's public key without being the very signed message the signer gave out with that index (or one for any chosen message when the index is unused), then its verification contains a collision of a keyed hash at one address with an honest signature of that index, or evaluates a one-time-signature chain at a position no released signature lets anyone evaluate and hits the honest chain value there, or (only for an index outside the key) hashes to the public root at an address outside the key's trees.", "quantifier": "every history of sign calls within the key's life, every adversarial signed message, every parameter set, both signers, both verifiers", "why_tests_cant": "quantifies over adversaries and over whole histories", "anchors": ["xmss.c:xmss_sign,xmss_sign_open,xmssmt_sign,xmssmt_sign_open", "xmss_commons.c:xmssmt_core_sign_open", "xmss_core.c:xmssmt_core_sign", "xmss_core_fast.c:xmss_core_sign,xmssmt_core_sign"]}
{"id": "C50", "title": "Every one-time key, in every layer, signs one value only", "statement": "Over any history of sign calls on one key, whenever the indices of two signatures designate the same tree and the same leaf in layer l, the two signatures carry byte for byte the same layer-l part (one-time signature and authentication path); so the one-time keys of the upper layers, which are used many times, always sign the same value.", "quantifier": "every history within the key's life, every pair of signatures, every layer, both signers, every parameter set", "why_tests_cant": "histories and messages are unbounded; signing two different values with one one-time key breaks the scheme", "anchors": ["xmss_core.c:xmssmt_core_sign", "xmss_core_fast.c:xmssmt_core_sign"]}
{"id": "C51", "title": "Damaged traversal state cannot cause index reuse (fast)", "statement": "For every secret key of the right length and OID, whatever index, seeds and traversal state it holds, and every history of fast-core sign calls that return: the k-th call uses exactly the stored index plus k, stores this plus one, reports the signature length plus message length, outputs the message unchanged after the signature, leaves the four seed fields as they were (all zero after the last index), and every call from index 2^h on is refused and leaves the output buffer alone; so no two successful calls share an index.", "quantifier": "every key content, every history of any length, every parameter set (h < 8*index bytes)", "why_tests_cant": "quantifies over all key contents and histories", "anchors": ["xmss_core_fast.c:xmss_core_sign,xmssmt_core_sign,xmssmt_deserialize_state,xmssmt_serialize_state", "xmss.c:xmss_sign,xmssmt_sign"]}
{"id": "C52", "title": "Signed messages depend only on randomness, position and message", "statement": "Any two signers (reference or fast, each), running with different contents of uninitialised storage, of the key buffers and of the output buffers, but drawing the same key-generation randomness, produce the same public key and, for the same sequence of messages, byte-identical signed messages with return code 0.", "quantifier": "every parameter set, every pair of cores, every stack garbage, every buffer content, every message sequence within the key's life", "why_tests_cant": "quantifies over garbage memory contents and histories", "anchors": ["xmss.c", "xmss_core.c", "xmss_core_fast.c"]}
{"id": "C53", "title": "Signing is memory safe on keys the library has made (both cores)", "statement": "Starting from a key made by keypair, every call of a history of sign calls (within the limit of the core's schedule) terminates without accessing memory outside its buffers and arrays, and changes no byte of the output buffer beyond sig_bytes + mlen.", "quantifier": "every parameter set, both cores, every history within the key's life", "why_tests_cant": "undefined behaviour is invisible to tests; histories are unbounded", "anchors": ["xmss_core.c", "xmss_core_fast.c", "wots.c", "hash.c"]}
{"id": "C54", "title": "Signing is memory safe for arbitrary key contents (fast core)", "statement": "Signing with a fast-core secret key of the right length and OID never accesses memory outside its buffers and arrays, whatever the stored traversal state holds.", "quantifier": "every secret key content, every message", "why_tests_cant": "undefined behaviour is invisible to tests", "anchors": ["xmss_core_fast.c:treehash_minheight_on_stack,treehash_update,xmssmt_deserialize_state"]}
{"id": "C55", "title": "The core functions work for the caller's own parameters", "statement": "For any usable choice of hash function, n, Winternitz parameter, height and number of layers made by hand (and, with the fast core, any usable BDS parameter), the core functions of both cores generate RFC 8391 keys, every signature of a history is the RFC's for the number of calls made before and opens under the public key, and the two cores answer alike.", "quantifier": "every parameter choice, both cores, every BDS parameter, all randomness, all messages, every history", "why_tests_cant": "unbounded parameter and history space; tests use the named parameter sets", "anchors": ["xmss_core.h", "params.c:xmss_xmssmt_initialize_params", "xmss_core.c:xmssmt_core_keypair,xmssmt_core_sign", "xmss_core_fast.c:xmss_core_keypair,xmss_core_sign,xmssmt_core_keypair,xmssmt_core_sign"]}
{"id": "C56", "title": "Opening with the caller's own parameters decides RFC 8391 verification", "statement": "For any usable parameter choice, core_sign_open returns 0 and the message exactly if RFC 8391 verification accepts the bytes under the public key, and otherwise returns -1, length 0 and zeros in place of the message.", "quantifier": "every parameter choice, public key, byte string and buffer", "why_tests_cant": "adversarial inputs over an unbounded parameter space", "anchors": ["xmss_commons.c:xmssmt_core_sign_open", "params.c:xmss_xmssmt_initialize_params"]}
{"id": "C57", "title": "The index only counts up, for the caller's own parameters and any key contents", "statement": "With any usable parameter choice of height up to 60 and any secret key contents, each returning call of either core uses the stored index once, stores it plus one, keeps the seeds (or erases them with the last index), and every call from index 2^h on is refused.", "quantifier": "every parameter choice, key content, history", "why_tests_cant": "all histories and key contents", "anchors": ["xmss_core.c:xmssmt_core_sign", "xmss_core_fast.c:xmss_core_sign,xmssmt_core_sign"]}
{"id": "C58", "title": "Crash histories of the sign tool never move the stored index back", "statement": "For any sequence of sign tool runs on one key file, each killed at any point or run to its end, with either core: the index in the key file never decreases, it has increased behind every run that had closed the key file, the output of a run carries the index the file held when the run started, and hence an index is released twice only if the earlier run was killed before it closed the key file.", "quantifier": "every key file with valid OIDs, sequence of messages and crash points, either core", "why_tests_cant": "quantifies over all sequences of crash points and stdio flush schedules", "anchors": ["ui/sign.c:main", "xmss_core.c:xmssmt_core_sign", "xmss_core_fast.c:xmss_core_sign,xmssmt_core_sign"]}
{"id": "C59", "title": "With the reference core the key file survives every crash", "statement": "From a key file written by the keypair tool, after any history of killed sign runs, a run that starts below the last index releases a prefix of a signed message for its own message that carries the stored index and that the open tool accepts under the original key file.", "quantifier": "every parameter set, randomness, history of messages and crash points", "why_tests_cant": "quantifies over all crash histories", "anchors": ["ui/sign.c:main", "ui/keypair.c:main", "ui/open.c:main", "xmss_core.c:xmssmt_core_sign"]}
{"id": "C60", "title": "A crash between the index and the rest of the key leaves a usable key (fast core)", "statement": "With the fast core, whatever byte of the key file a killed sign run reached, the next sign run produces a signed message that opens. (False: killed behind the index, the key file combines the new index with the old traversal state; later runs release index i+1 with the authentication path of leaf i, and with a single tree that is rejected unless the hash function collides.)", "quantifier": "every parameter set, randomness, session of messages, crash point and later message", "why_tests_cant": "depends on the crash point within one write and on every later message", "anchors": ["ui/sign.c:main", "xmss_core_fast.c:xmss_core_sign", "xmss_core_fast.c:xmssmt_core_sign", "xmss_core_fast.c:xmssmt_deserialize_state"]}
{"id": "C61", "title": "No change to a signed message goes unnoticed", "statement": "Take any signed message given out by a signer (reference or fast) after any history and change it in any way that keeps the index field: message bytes, signature bytes, message length. If the changed signed message still opens under the public key, it exhibits a collision of the hash function with the hashes made when verifying the original, or a one-time-signature chain value that no released signature shows. In particular signatures are not malleable.", "quantifier": "every history, every released signed message, every modification, every parameter set, both signers, both verifiers", "why_tests_cant": "quantifies over all modifications; tests flip a few bytes", "anchors": ["xmss.c:xmss_sign_open,xmssmt_sign_open", "xmss_commons.c:xmssmt_core_sign_open", "wots.c:wots_pk_from_sig", "xmss_core.c:xmssmt_core_sign", "xmss_core_fast.c:xmss_core_sign"]}
{"id": "C62", "title": "The repository's own test programs pass", "statement": "Every program that `make test` runs (test/wots, oid, speed, xmss_determinism, xmss, xmss_fast, xmssmt, xmssmt_fast, maxsigsxmss, maxsigsxmssmt), built as the Makefile builds it, returns 0 on every random input, and so do the same programs for every other parameter set and number of signatures below the key's capacity; a failure report is possible only if a message with a flipped bit opens, which exhibits a collision of the hash function or a chain value no released signature shows.", "quantifier": "all random bytes, all parameter sets, both cores, every number of signatures below the limit", "why_tests_cant": "the programs are the tests: a run settles one random key only, and says nothing about other keys, parameter sets or signature counts", "anchors": ["test/xmss.c:main", "test/xmss_max_signatures.c:main", "test/xmss_determinism.c:main", "test/speed.c:main", "test/wots.c:main", "test/oid.c:main", "Makefile"]}
{"id": "C63", "title": "The reference implementation can take over a key of the fast one", "statement": "From the same random bytes, key generation of the reference and of the fast implementation gives the same public key, and the reference secret key is the beginning of the fast one. After any sequence of signatures both have answered the same, and the reference secret key is still the beginning of the fast one. From that point the reference implementation can be given the fast key, whole or cut to its first bytes: every further signed message is the one the reference key would give, and the bytes behind the reference part stay as they are.", "quantifier": "every parameter set, all random bytes, every sequence of messages below the fast core's limit, every continuation below 2^h", "why_tests_cant": "the tests build each program against one core; no test changes the implementation in mid-life, and the claim ranges over every point of change and every continuation", "anchors": ["xmss_core.c:xmss_core_sign,xmssmt_core_sign,xmssmt_core_seed_keypair", "xmss_core_fast.c:xmss_core_sign,xmssmt_core_sign,xmssmt_core_seed_keypair", "xmss.c:xmss_sign,xmssmt_sign"]}
{"id": "C64", "title": "The fast implementation can take a key back after the reference one has used it", "statement": "After the reference implementation has made signatures with a fast key, the fast implementation can go on with that key: every signed message it then returns with code 0 opens under the public key.", "quantifier": "every parameter set, all random bytes, every history and point of change", "why_tests_cant": "the tests build each program against one core; no test alternates between them", "anchors": ["xmss_core_fast.c:xmss_core_sign,xmssmt_core_sign,xmss_deserialize_state", "xmss_core.c:xmssmt_core_sign"]}
{"id": "C65", "title": "The published test vectors are RFC 8391 values", "statement": "test/vectors prints 21 lines: for the seven hash functions the SHAKE128 fingerprints of the WOTS+ public key, signature and leaf of its fixed inputs, and for the seven XMSS^MT sets with h = 20, d = 4 and the seven XMSS sets with h = 10 those of the public key of the seed 0, 1, 2, ... and of its signature number 2^(h-1) on the byte 37, all exactly as RFC 8391 defines them. Nothing printed depends on the uninitialised buffers the program passes around.", "quantifier": "every hash library satisfying its output lengths, all contents of uninitialised memory", "why_tests_cant": "the program only prints; agreement of its output with another run says nothing about the standard or about uninitialised memory that happened to hold the same bytes", "anchors": ["test/vectors.c:vectors_wots,vectors_xmss,print_hash,print_hex,main", "xmss_core.c:xmssmt_core_seed_keypair,xmssmt_core_sign", "xmss_commons.c:gen_leaf_wots"]}
{"id": "C66", "title": "Message and signed message may share one buffer", "statement": "Signing and opening give the same result when the message stands in the buffer of the signed message (for instance m = sm) as when it is in a separate buffer, as long as it does not overlap the place where the message belongs in the output.", "quantifier": "every parameter set, core, key state in every history, message, position of the message in the buffer", "why_tests_cant": "the result depends on the order in which every byte of the signature is written and the message is read again, for every position and length", "anchors": ["xmss_core.c:xmssmt_core_sign", "xmss_core_fast.c:xmss_core_sign,xmssmt_core_sign", "xmss_commons.c:xmssmt_core_sign_open", "hash.c:hash_message", "xmss.h:xmss_sign,xmss_sign_open"]}
{"id": "C67", "title": "Keys generated in several threads share no randomness", "statement": "When several threads generate keys (or call randombytes) at the same time, every call fills exactly its own buffer with bytes delivered by /dev/urandom; no delivered byte is used for two keys or twice in one; no call returns before its buffer is full; nothing outside the buffers changes; and if the device can eventually be opened and read, every call returns.", "quantifier": "every number of threads, every interleaving of their steps, every sequence of answers of open and read (failures, short reads), every buffer layout without overlap; for termination every fair schedule", "why_tests_cant": "the shared file descriptor is not protected: the outcome depends on the schedule and on which thread's open fails, far more than a stress test visits", "anchors": ["randombytes.c:fd,randombytes", "xmss_core.c:xmssmt_core_keypair", "xmss_core_fast.c:xmss_core_keypair,xmssmt_core_keypair"]}
{"id": "C68", "title": "Overlapping runs of the sign tool never reuse an index", "statement": "When several processes run the sign tool on the same key file at the same time, the signed messages they release carry pairwise different indices and the key file they leave behind has an index above all of them, so that nobody but the key's owner can make a signed message for another message that the open tool accepts.", "quantifier": "every parameter set and either core, every generated key file, every session before, every number of overlapping runs with any messages, every interleaving of their file operations", "why_tests_cant": "the outcome depends on the interleaving of processes; a test sees the few schedules the machine happens to choose, and a reused index shows in no return value", "anchors": ["ui/sign.c:main", "xmss_core.c:xmssmt_core_sign", "xmss_core_fast.c:xmss_core_sign,xmssmt_core_sign", "wots.c:wots_sign,wots_pk_from_sig"]}
{"id": "C69", "title": "A root belongs to one public key", "statement": "If two public keys with the same root, of parameter sets that use the same hash function, each accept some signed message, then the two keys and parameter sets are the same, or the two verifications hash two different strings to the same value. In particular the OID or the seed in the public key of a generated key pair cannot be exchanged.", "quantifier": "every hash function, every pair of parameter sets (XMSS and XMSSMT), every two public keys and signed messages, whoever made them", "why_tests_cant": "it is a statement about all keys and signed messages an adversary could construct", "anchors": ["xmss.c:xmss_sign_open,xmssmt_sign_open", "xmss_commons.c:xmssmt_core_sign_open,compute_root", "hash.c:thash_h,prf", "hash_address.c"]}
{"id": "C70", "title": "Keys have the documented layout", "statement": "Public keys are OID, root, PUB_SEED and secret keys start with OID, index, SK_SEED, SK_PRF, PUB_SEED, root, as xmss.h and xmss_core.h say, with an index of 4 bytes (XMSS) or ceil(h/8) bytes (XMSSMT) that counts the signatures made, for both implementations.", "quantifier": "every parameter set, both implementations, every randomness, every history of signatures", "why_tests_cant": "round-trip tests never look inside a key, and a layout has to hold for all keys and after all histories", "anchors": ["xmss.h:xmss_keypair,xmssmt_keypair", "xmss_core.h:xmss_core_keypair,xmssmt_core_keypair,xmssmt_core_seed_keypair", "xmss_core.c:xmssmt_core_seed_keypair", "xmss_core_fast.c:xmss_core_keypair,xmssmt_core_keypair"]}
{"id": "C71", "title": "The work of a call is bounded", "statement": "The number of leaves (WOTS+ public keys) one API call computes is known in advance, whatever the key, message and index: key generation computes one tree (reference) or one tree per layer (fast core); a reference signature computes d trees and a refused one nothing; a fast signature computes at most half a tree height of leaves plus one (XMSS) or two (XMSSMT), however many trees end at that index.", "quantifier": "every parameter set, both implementations, every key content, index, message and randomness, every history of signatures", "why_tests_cant": "the expensive indices are rare (one in 2^15 or fewer), far beyond what a test signs, and a timing test only samples", "anchors": ["xmss_core_fast.c:bds_treehash_update,bds_state_update,bds_round,xmss_core_sign,xmssmt_core_sign,xmss_core_keypair,xmssmt_core_keypair", "xmss_core.c:treehash,xmssmt_core_seed_keypair,xmssmt_core_sign", "xmss.c:xmss_sign,xmssmt_sign", "xmss_commons.c:gen_leaf_wots"]}
{"id": "C72", "title": "Verification does bounded work on any bytes, and the number of hash calls of signing reveals nothing beyond the signature", "statement": "Opening a signed message runs the hash function at most a number of times fixed by the parameter set, whatever bytes are given as signature, message and key, and not at all when the OID is unknown. Key generation with the reference implementation always takes the same number of hash calls. A refused sign call takes none, and a successful one takes exactly a constant minus what verifying the result takes: the effort of signing depends on the secret key only through the published signature.", "quantifier": "every parameter set (and any parameter structure, for the bound on verification), every byte string as signature, message and key, every environment, randomness and index", "why_tests_cant": "a bound on work for adversarial inputs and the independence of the count from secrets are statements about all inputs; timing tests sample a few", "anchors": ["xmss_commons.c:xmssmt_core_sign_open,compute_root,l_tree", "wots.c:gen_chain,wots_sign,wots_pk_from_sig,chain_lengths", "xmss_core.c:treehash,xmssmt_core_sign,xmssmt_core_seed_keypair", "hash.c:core_hash,thash_h,thash_f,prf,prf_keygen,hash_message", "xmss.c:xmss_sign,xmssmt_sign,xmss_sign_open,xmssmt_sign_open"]}
{"id": "C73", "title": "The benchmark prints the average and the median of what it measured", "statement": "For counter readings that never go back, the benchmark prints the mean and the median of the times between successive readings, and no integer overflow, out-of-bounds access or division by zero happens.", "quantifier": "every number of readings and every non-decreasing sequence of 64-bit readings", "why_tests_cant": "the printed figures of a real run cannot be compared with anything, and the relation has to hold for all readings", "anchors": ["test/speed.c:cmp_llu,median,average,print_results"]}
{"id": "C74", "title": "Key generation and signing are free of secret-dependent branches and memory accesses", "statement": "Which way every branch goes, which memory addresses are accessed and how long the hashed inputs are, during key generation and during any sequence of sign calls, does not depend on SK_SEED, SK_PRF, the root, PUB_SEED, the tree nodes and one-time signatures stored in the key, the random bytes or the contents of the messages: it is the same for any two keys with the same OID, index and traversal counters and messages of the same lengths. The only exception is how many steps the chains of a one-time signature take, and that can be computed from the public key and the signed message.", "quantifier": "every parameter set of both tables, both cores, every pair of keys and messages, every index and every history of calls", "why_tests_cant": "a timing or cache measurement compares a few runs under noise; absence of dependence is a statement about all pairs of runs", "anchors": ["xmss_core.c:xmssmt_core_keypair,xmssmt_core_sign,treehash", "xmss_core_fast.c:xmss_core_keypair,xmss_core_sign,xmssmt_core_keypair,xmssmt_core_sign,bds_round,bds_treehash_update,bds_state_update", "wots.c:wots_sign,gen_chain", "hash.c"]}
{"id": "C75", "title": "The fast implementation's hash work is bounded, whatever its stored state holds", "statement": "With the fast implementation, signing runs the hash function at most a number of times fixed by the parameter set - the message, one one-time signature and half a tree height (plus one or two) of tree-hash updates, instead of whole trees - for any message and any secret key bytes of the right length and OID, even if the stored traversal state is torn or made up. A refused call runs it not at all; a call that returns has run it a fixed number of times for every leaf it computed, and for a signature also for the randomness, the message and a one-time signature. Key generation takes between two numbers fixed by the parameter set, which are equal for XMSS.", "quantifier": "all environments, parameter sets, secret keys of the right shape (state arbitrary), indices, messages and buffers; all randomness for key generation", "why_tests_cant": "the worst case over all 2^h indices and over damaged states cannot be run, and a test that times signatures sees averages", "anchors": ["xmss_core_fast.c:treehash_update,bds_treehash_update,bds_state_update,bds_round,treehash_init", "xmss_core_fast.c:xmss_core_sign,xmssmt_core_sign,xmss_core_keypair,xmssmt_core_keypair", "hash.c:core_hash"]}
