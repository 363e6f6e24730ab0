{
 "claims": [
  {
   "property": "C01",
   "status": "proved",
   "theorems": [
    "C01_signed_messages_open",
    "C01_fast_signed_messages_open",
    "C01_fast_mt_signed_messages_open",
    "C27_refuted"
   ],
   "note": "reference core: all 77 standard parameter sets, every history; fast core: all XMSS sets and all XMSSMT sets within the schedule's limit (2^h calls; 2^20 for 40/8 and 60/12). The limit is sharp: C27_refuted shows that for 40/8 and 60/12 the fast core's signature number 2^20 does not open."
  },
  {
   "property": "C02",
   "status": "partial",
   "theorems": [
    "C02_last_signature_is_rejected",
    "C02_last_signature_can_open",
    "C02_refuted",
    "C02_last_signature_ignores_key",
    "C02_refuted_fast",
    "C02_fast_last_signature_ignores_key",
    "C02_refuted_fast_mt"
   ],
   "note": "false of the code, for every hash function and both cores: the key is wiped before it is used, and the signed message that comes out opens only if the hash function is broken"
  },
  {
   "property": "C03",
   "status": "proved",
   "theorems": [
    "C03_indices_count_up",
    "C03_no_index_reuse",
    "C03_fast_life",
    "C03_fast_no_index_reuse",
    "C03_fast_mt_life",
    "C03_fast_mt_no_index_reuse",
    "C51_any_key_no_index_reuse"
   ],
   "note": "reference core: all sets, any history; fast core: all XMSS sets and the XMSSMT sets with few layers any history, 60/12 any history of calls that return (C51); 40-level sets within 2^40 calls, where the index wraps (C04_refuted_height_40, C04_refuted_fast_height_40)"
  },
  {
   "property": "C04",
   "status": "partial",
   "theorems": [
    "C04_exhaustion_is_final",
    "C03_fast_life",
    "C03_fast_mt_life",
    "C51_any_key_counts_up",
    "C04_refuted_height_40",
    "C04_refuted_fast_height_40"
   ],
   "note": "proved for every set with h <> 40, both cores; false for h=40 (5-byte index wraps) in both cores"
  },
  {
   "property": "C05",
   "status": "proved",
   "theorems": [
    "C05_sign_changes_only_index",
    "C05_fast_key_change",
    "C05_fast_mt_key_change",
    "C51_any_key_change"
   ],
   "note": "reference core; for the fast core everything but the traversal state is kept"
  },
  {
   "property": "C06",
   "status": "proved",
   "theorems": [
    "C06_signatures_are_rfc8391"
   ],
   "note": ""
  },
  {
   "property": "C07",
   "status": "proved",
   "theorems": [
    "C07_open_decides_rfc8391"
   ],
   "note": ""
  },
  {
   "property": "C08",
   "status": "proved",
   "theorems": [
    "C08_keypair_is_rfc8391"
   ],
   "note": ""
  },
  {
   "property": "C09",
   "status": "proved",
   "theorems": [
    "C09_wots_roundtrip",
    "C09_any_address"
   ],
   "note": "every hand-made or standard parameter choice; C09_any_address: whatever the words of the address are"
  },
  {
   "property": "C10",
   "status": "partial",
   "theorems": [
    "C10_domination_free_partial",
    "C10_refuted_w256"
   ],
   "note": "proved for w = 4 and 16 (all standard sets use 16); false for w = 256"
  },
  {
   "property": "C11",
   "status": "proved",
   "theorems": [
    "C11_chain_lengths"
   ],
   "note": "for w = 256 the checksum digits are those of RFC 8391's (defective) formula"
  },
  {
   "property": "C12",
   "status": "proved",
   "theorems": [
    "C12_decode_encode",
    "C12_encode_decode",
    "C12_encode_injective",
    "C12_encode_preserves_order",
    "C12_decode_too_long"
   ],
   "note": ""
  },
  {
   "property": "C13",
   "status": "proved",
   "theorems": [
    "C13_names",
    "C13_oids",
    "C13_distinct",
    "C13_unknown_oid"
   ],
   "note": ""
  },
  {
   "property": "C14",
   "status": "proved",
   "theorems": [
    "C14_derived_sizes",
    "C14_initialisation_succeeds",
    "C14_standard_sets",
    "C14_bad_w"
   ],
   "note": ""
  },
  {
   "property": "C15",
   "status": "partial",
   "theorems": [
    "C15_refuted",
    "C15_padding_never_set",
    "C15_with_padding_partial"
   ],
   "note": "false: padding_len is never set"
  },
  {
   "property": "C16",
   "status": "proved",
   "theorems": [
    "C08_keypair_is_rfc8391",
    "C16_keypair_rejects_unknown_oid",
    "C16_sign_rejects_unknown_oid",
    "C16_open_rejects_unknown_oid"
   ],
   "note": ""
  },
  {
   "property": "C17",
   "status": "partial",
   "theorems": [
    "C17_refuted",
    "C17_open_refuted",
    "C17_sign_defined_iff_partial",
    "C17_open_defined_iff_partial"
   ],
   "note": "false: OID byte >= 0x80 shifts into the sign bit; the _iff theorems say this is the only case (buffers of the OID's sizes; sign: reference core; what is missing is the part of the statement that is false)"
  },
  {
   "property": "C18",
   "status": "proved",
   "theorems": [
    "C07_open_decides_rfc8391"
   ],
   "note": ""
  },
  {
   "property": "C19",
   "status": "partial",
   "theorems": [
    "C19_refuted"
   ],
   "note": "false"
  },
  {
   "property": "C20",
   "status": "proved",
   "theorems": [
    "C07_open_decides_rfc8391"
   ],
   "note": ""
  },
  {
   "property": "C21",
   "status": "partial",
   "theorems": [
    "C21_refuted"
   ],
   "note": "false"
  },
  {
   "property": "C22",
   "status": "proved",
   "theorems": [
    "C22_sign_memory_safe"
   ],
   "note": ""
  },
  {
   "property": "C23",
   "status": "proved",
   "theorems": [
    "C23_treehash_is_merkle_tree"
   ],
   "note": ""
  },
  {
   "property": "C24",
   "status": "proved",
   "theorems": [
    "C24_compute_root",
    "C24_auth_path_leads_to_root"
   ],
   "note": ""
  },
  {
   "property": "C25",
   "status": "proved",
   "theorems": [
    "C25_l_tree"
   ],
   "note": ""
  },
  {
   "property": "C26",
   "status": "proved",
   "theorems": [
    "C26_fast_xmss_is_reference",
    "C26_custom_parameters"
   ],
   "note": "all standard XMSS sets, and caller-chosen parameters with d = 1 and any usable BDS k"
  },
  {
   "property": "C27",
   "status": "partial",
   "theorems": [
    "C27_fast_xmssmt_is_reference_partial",
    "C27_refuted"
   ],
   "note": "proved for every XMSSMT set and every history shorter than fast_limit: 2^h for all sets but 40/8 and 60/12, where it is 2^20. Beyond that the property is false of the code: C27_refuted (first 2^20 answers agree, then a signature returned with code 0 is refused by the verifier, the reference's is accepted)."
  },
  {
   "property": "C28",
   "status": "partial",
   "theorems": [
    "C28_stored_traversal_partial",
    "C28_next_tree_is_built_partial",
    "C28_refuted",
    "C28_refuted_wrong_node"
   ],
   "note": "proved for every XMSSMT set below fast_limit (2^h, or 2^20 for 40/8 and 60/12); false for those two at index 2^20-1 in every environment: C28_refuted (31 of 32 leaves), C28_refuted_wrong_node (layer 4 then signs the left child of the root instead of the root)"
  },
  {
   "property": "C29",
   "status": "proved",
   "theorems": [
    "C29_store_then_load",
    "C29_load_then_store"
   ],
   "note": "all standard sets and caller-chosen parameters, any d and k"
  },
  {
   "property": "C30",
   "status": "partial",
   "theorems": [
    "C30_keypair_deterministic",
    "C30_refuted_fast"
   ],
   "note": "proved for the reference core; false for the fast core: bytes of the caller's buffer survive in the key"
  },
  {
   "property": "C31",
   "status": "proved",
   "theorems": [
    "C31_sign_deterministic"
   ],
   "note": ""
  },
  {
   "property": "C32",
   "status": "proved",
   "theorems": [
    "C32_what_is_hashed",
    "C32_roles_separated",
    "C32_message_key",
    "C32_standard_sets"
   ],
   "note": "every parameter choice with a non-empty prefix, in particular all standard sets"
  },
  {
   "property": "C33",
   "status": "proved",
   "theorems": [
    "C33_address_encoding_injective",
    "C33_positions_differ",
    "C33_code_addresses"
   ],
   "note": ""
  },
  {
   "property": "C34",
   "status": "proved",
   "theorems": [
    "C34_shake128_is_fips202",
    "C34_shake256_is_fips202"
   ],
   "note": ""
  },
  {
   "property": "C35",
   "status": "proved",
   "theorems": [
    "C35_hash_supported",
    "C35_every_oid_hashes"
   ],
   "note": ""
  },
  {
   "property": "C36",
   "status": "proved",
   "theorems": [
    "C36_leaf_binding",
    "C36_one_time_key_binding",
    "C36_accepted_signatures_share_keys",
    "C36_accepted_signatures_share_paths"
   ],
   "note": "collisions are between queries of the two given runs; one-time public keys and authentication paths are both bound"
  },
  {
   "property": "C37",
   "status": "proved",
   "theorems": [
    "C37_two_openings_break_the_hash",
    "C37_forgery_breaks_the_hash"
   ],
   "note": ""
  },
  {
   "property": "C38",
   "status": "proved",
   "theorems": [
    "C38_fills_exactly",
    "C38_memory_safe",
    "C38_returns"
   ],
   "note": ""
  },
  {
   "property": "C39",
   "status": "partial",
   "theorems": [
    "C39_refuted",
    "C39_refuted_index_reuse",
    "C39_after_close_partial"
   ],
   "note": "false, with either core and behind every session: stdout may be flushed before the key file, and the next run uses the same index again; holds from fclose of the key file on"
  },
  {
   "property": "C40",
   "status": "partial",
   "theorems": [
    "C40_refuted",
    "C40_refuted_fast_core"
   ],
   "note": "false: the return code of sign is ignored; the reference core's tool emits heap garbage with exit status 0, the fast core's tool uses an uninitialised length"
  },
  {
   "property": "C41",
   "status": "proved",
   "theorems": [
    "C41_keypair_unknown_name",
    "C41_sign_unknown_oid",
    "C41_sign_unknown_secret_oid",
    "C41_open_unknown_oid",
    "C41_no_effect"
   ],
   "note": "key files of at least 4 bytes"
  },
  {
   "property": "C42",
   "status": "proved",
   "theorems": [
    "C42_open_deterministic"
   ],
   "note": ""
  },
  {
   "property": "C43",
   "status": "partial",
   "theorems": [
    "C43_refuted",
    "C43_out_of_range_is_a_collision_partial"
   ],
   "note": "false as stated: the range is not checked (C43_refuted, with a degenerate hash); what holds: such a message opens only by a collision of the hash function with the last hash of key generation"
  },
  {
   "property": "C44",
   "status": "proved",
   "theorems": [
    "C44_refused_key_is_wiped",
    "C44_fast_refused_key_is_wiped"
   ],
   "note": "both cores, any key contents"
  },
  {
   "property": "C45",
   "status": "partial",
   "theorems": [
    "C45_refuted",
    "C44_fast_refused_key_is_wiped"
   ],
   "note": "false for the reference core; proved for the fast core"
  },
  {
   "property": "C46",
   "status": "proved",
   "theorems": [
    "C46_torn_key_never_goes_back"
   ],
   "note": "reference core; bytes reach the disk in order"
  },
  {
   "property": "C47",
   "status": "proved",
   "theorems": [
    "C47_open_tool"
   ],
   "note": ""
  },
  {
   "property": "C48",
   "status": "proved",
   "theorems": [
    "C48_tools_end_to_end",
    "C48_tools_either_core"
   ],
   "note": "reference core for every buffer contents; either core if uninitialised bytes are bytes (the fast core's keypair leaves some of them in the key)"
  },
  {
   "property": "C49",
   "status": "proved",
   "theorems": [
    "C49_no_forgery",
    "C49_forgery_breaks_the_hash"
   ],
   "note": "both signers: 2^h calls for the reference core, fast_limit calls for the fast one (2^h, 2^20 for 40/8 and 60/12)"
  },
  {
   "property": "C50",
   "status": "proved",
   "theorems": [
    "C50_one_time_key_signs_one_value"
   ],
   "note": "both signers, within the same limits as C49; beyond fast_limit the sets 40/8 and 60/12 of the fast core sign a wrong node (C28_refuted_wrong_node)"
  },
  {
   "property": "C51",
   "status": "proved",
   "theorems": [
    "C51_any_key_counts_up",
    "C51_any_key_no_index_reuse",
    "C51_any_key_change"
   ],
   "note": "for calls that return; a damaged state can also make the code index out of its arrays (then the model says UB and nothing is claimed); 40-level sets: C04_refuted_fast_height_40"
  },
  {
   "property": "C52",
   "status": "proved",
   "theorems": [
    "C52_any_two_signers_agree"
   ],
   "note": "limits: 2^h calls (reference), fast_limit calls (fast)"
  },
  {
   "property": "C53",
   "status": "proved",
   "theorems": [
    "C22_reachable_keys_memory_safe"
   ],
   "note": "limits: 2^h calls (reference), fast_limit calls (fast)"
  },
  {
   "property": "C54",
   "status": "partial",
   "theorems": [
    "C22_refuted_fast",
    "C51_any_key_counts_up"
   ],
   "note": "false: one wrong byte in the stored traversal state makes the fast core read below its stack (C22_refuted_fast); what remains true of returning calls is C51"
  },
  {
   "property": "C55",
   "status": "proved",
   "theorems": [
    "C55_custom_parameters_round_trip",
    "C55_custom_parameters_cores_agree"
   ],
   "note": "limits: 2^h calls (reference, fast single tree); fast multi-tree: 2^(th*min(d,(th-k)/2+2)) calls, trees of at least 3 levels"
  },
  {
   "property": "C56",
   "status": "proved",
   "theorems": [
    "C56_custom_parameters_open"
   ],
   "note": ""
  },
  {
   "property": "C57",
   "status": "proved",
   "theorems": [
    "C57_custom_parameters_count_up",
    "C57_custom_parameters_key_change"
   ],
   "note": ""
  },
  {
   "property": "C58",
   "status": "proved",
   "theorems": [
    "C58_stored_index",
    "C58_reuse_needs_a_crash"
   ],
   "note": "either core, arbitrary traversal state, every crash history; parameter sets whose index has spare values (h < 8*index bytes)"
  },
  {
   "property": "C59",
   "status": "proved",
   "theorems": [
    "C59_reference_core_survives_crashes"
   ],
   "note": "reference core; see C60 for the fast core"
  },
  {
   "property": "C60",
   "status": "partial",
   "theorems": [
    "C60_refuted_torn_key_file",
    "C60_path_comes_from_the_state"
   ],
   "note": "false with the fast core: a torn key file yields signatures with a stale path; the later call is shown to return for every odd index that is not the last leaf of its tree (for even ones only: if it returns, its path is stale); the stale message opens only if the hash function is broken"
  },
  {
   "property": "C61",
   "status": "proved",
   "theorems": [
    "C61_modified_signed_messages"
   ],
   "note": "both signers, both verifiers; strong unforgeability: whole signed messages, not only messages"
  },
  {
   "property": "C62",
   "status": "partial",
   "theorems": [
    "C62_make_test",
    "C62_refuted_xmss_fast",
    "C62_test_xmss",
    "C62_test_xmss_invalidsig",
    "C62_refuted_full_lifetime",
    "C62_test_max_signatures",
    "C62_test_determinism",
    "C62_test_speed",
    "C62_test_oid",
    "C62_test_wots"
   ],
   "note": "false for test/xmss_fast, which signs with all 1024 indices of its key (C02); every other program of make test returns 0 unless its flipped message opens by breaking the hash function; also with -DXMSS_TEST_INVALIDSIG, where 0 means that no flip opens"
  },
  {
   "property": "C63",
   "status": "proved",
   "theorems": [
    "C63_reference_continues_a_fast_key"
   ],
   "note": ""
  },
  {
   "property": "C64",
   "status": "partial",
   "theorems": [
    "C64_refuted_fast_after_reference"
   ],
   "note": "refuted: the next fast call that returns gives out index i+1 with the authentication path of leaf i; that message opens only if the hash function is broken; a run on a small tree is evaluated (C64_run). That this fast call returns is shown for every odd i that is not the last leaf of its tree"
  },
  {
   "property": "C65",
   "status": "proved",
   "theorems": [
    "C65_vectors_are_rfc8391",
    "C65_leaf_of_rfc_address"
   ],
   "note": "test/vectors built with the reference core; printf conversions %x and %d are modelled for the values that occur"
  },
  {
   "property": "C66",
   "status": "partial",
   "theorems": [
    "C66_reference_signs_in_place_partial",
    "C66_refuted_fast_sign_in_place",
    "C66_refuted_open_in_place",
    "C66_unknown_oid_in_place"
   ],
   "note": "proved for signing with the reference core; refuted for the fast core (message inside the signature area) and for opening with m = sm"
  },
  {
   "property": "C67",
   "status": "proved",
   "theorems": [
    "C67_threads_share_no_random_bytes",
    "C67_threads_return",
    "C67_concurrent_keys"
   ],
   "note": "int loads and stores of the static descriptor are taken as atomic (C11 calls the data race undefined); the bytes of one read are copied in one step; which of a stored value or a new load lines 17 and 32 use is left open"
  },
  {
   "property": "C68",
   "status": "partial",
   "theorems": [
    "C68_refuted_overlapping_runs",
    "C68_reuse_lets_anybody_forge"
   ],
   "note": "the property is false: refuted for every key file, session and set of messages within the key's limit, with the forgery; the positive statement for runs that do not overlap is C48/C58"
  },
  {
   "property": "C69",
   "status": "proved",
   "theorems": [
    "C69_root_fixes_the_public_key",
    "C69_root_of_a_made_key"
   ],
   "note": "stated for parameter sets with the same hash function and n; between different hash functions nothing can be said"
  },
  {
   "property": "C70",
   "status": "partial",
   "theorems": [
    "C70_key_layout_partial",
    "C70_refuted_documented_secret_key"
   ],
   "note": "the public key, the index and the first fields are as documented; the documented order of PUB_SEED and root in the secret key is refuted (equal only if the two strings are equal)"
  },
  {
   "property": "C71",
   "status": "partial",
   "theorems": [
    "C71_counting_changes_nothing",
    "C71_keypair_effort",
    "C71_reference_sign_effort",
    "C71_fast_sign_effort_partial",
    "C71_refuted",
    "C71_custom_fast_sign_effort",
    "C71_custom_keypair_effort"
   ],
   "note": "false as stated for 20/4, 40/8 and 60/12 at the indices where three trees end at once (C71_refuted); proved for every other call and set; work is counted in leaves, the hashes outside them are not"
  },
  {
   "property": "C72",
   "status": "proved",
   "theorems": [
    "C72_counting_changes_nothing",
    "C72_verification_bounded",
    "C72_core_verification_bounded",
    "C72_keypair_hashes",
    "C72_sign_bounded",
    "C72_sign_effort_is_public",
    "C72_same_signature_same_effort"
   ],
   "note": "counted in hash calls, not in time; the fast core is counted in C75"
  },
  {
   "property": "C73",
   "status": "partial",
   "theorems": [
    "C73_average",
    "C73_median_partial",
    "C73_refuted_median"
   ],
   "note": "the average is right from two readings on; the printed median is not the median (exact value proved), and one reading divides by zero (C73_refuted_median)"
  },
  {
   "property": "C74",
   "status": "partial",
   "theorems": [
    "C74_observing_changes_nothing",
    "C74_reference_keypair_constant_time",
    "C74_reference_sign_constant_time",
    "C74_reference_chain_lengths",
    "C74_reference_simulated",
    "C74_reference_life",
    "C74_fast_sign_constant_time",
    "C74_fast_life",
    "C74_fast_xmss_simulated",
    "C74_fast_xmssmt_simulated_partial",
    "C74_refuted_fast_xmssmt"
   ],
   "note": "complete for the reference core and for XMSS in the fast core: the whole trace of a key's life is computed by a simulator from the public key and the signed messages (and the public bytes the key buffer held before). Refuted as stated for XMSSMT in the fast core: chains are computed ahead, so the simulator of a call needs the next signed message too (C74_refuted_fast_xmssmt: two keys with equal public key and equal signatures whose 32nd traces differ); with it every call is simulated (40/8 and 60/12 up to index 2^20)"
  },
  {
   "property": "C75",
   "status": "partial",
   "theorems": [
    "C75_counting_changes_nothing",
    "C75_keypair_hashes",
    "C75_fast_sign_bounded_partial",
    "C75_refused_hashes_nothing",
    "C75_leaves_cost",
    "C75_signature_cost",
    "C75_refuted"
   ],
   "note": "the bound on signing leaves out the calls of 20/4, 40/8 and 60/12 at which many trees end at once, where it is false (C75_refuted); everything else in full"
  }
 ]
}