{
 "claims": [
  {
   "property": "C01",
   "status": "proved",
   "theorems": [
    "C01_round_trip",
    "C01_only_canonical",
    "C01_prefix_free",
    "C01_read_size"
   ],
   "note": "Reader and writer of variable integers over the byte reader model: round trip, canonicality of accepted encodings, prefix freedom, read_size limit."
  },
  {
   "property": "C02",
   "status": "partial",
   "theorems": [
    "C02_encoders",
    "C02_decoders",
    "C02_round_trip",
    "C02_any_size",
    "C02_any_size_round_trip",
    "C02_stream_read",
    "C02_one_byte_integer_refuted"
   ],
   "note": "Proved for every native width, host endianness, and for all integer types wider than a byte at any array size. The explicit-size encoder of one byte integers is refuted (value lands in the most significant byte)."
  },
  {
   "property": "C03",
   "status": "proved",
   "theorems": [
    "C03_reader_refines_array",
    "C03_invalid_is_permanent",
    "C03_composites_stay_invalid",
    "C03_within_source",
    "C03_limit_bounds_position",
    "C03_set_position_revives",
    "C03_overread_pads"
   ],
   "note": "Refinement of the reader to an array-with-budget specification over every operation sequence, permanence of invalidity, bounds, revival by set_position."
  },
  {
   "property": "C04",
   "status": "partial",
   "theorems": [
    "C04_read_line_partial",
    "C04_read_line_self_overlapping_refuted",
    "C04_read_line_high_byte_refuted"
   ],
   "note": "Proved for terminators of 7-bit characters whose first character does not recur; refuted for self-overlapping terminators and for terminators containing bytes above 127."
  },
  {
   "property": "C05",
   "status": "proved",
   "theorems": [
    "C05_encode_denotes_shortest",
    "C05_decode_limit_exact",
    "C05_roundtrip",
    "C05_integer_limit_matches_encoding",
    "C05_minimum_excluded"
   ],
   "note": "Encode/decode/limit for n in 2..8; one-byte integer types are not instantiated by the code."
  },
  {
   "property": "C06",
   "status": "proved",
   "theorems": [
    "C06_element_bytes",
    "C06_truthiness",
    "C06_strict",
    "C06_minimal_bool",
    "C06_equality"
   ],
   "note": "All variant representations; element_bytes is the spec relation."
  },
  {
   "property": "C07",
   "status": "proved",
   "theorems": [
    "C07_run_matches_reference",
    "C07_result_truth",
    "C07_accepts_only_what_reference_accepts",
    "C07_same_verdict_as_reference",
    "C07_same_verdict_with_strict_encodings_refuted"
   ],
   "note": "Model of every opcode of interpreter/program with the variant stack against a byte-stack reference evaluator (InterpSpec.v); same outcome and stacks for every script, context and start. The reference client's early exit in CHECKMULTISIG under strict DER is a proved divergence (C07_same_verdict_with_strict_encodings_refuted); acceptance implies reference acceptance and the verdicts agree whenever bip66 is off or no multisig occurs."
  },
  {
   "property": "C08",
   "status": "proved",
   "theorems": [
    "C08_no_undefined_behaviour"
   ],
   "note": "Undefined behaviour (pop/peek/erase of missing elements, negative condition count, signed overflow) is an explicit None outcome of the model; proved unreachable."
  },
  {
   "property": "C09",
   "status": "proved",
   "theorems": [
    "C09_prefixes_of_a_successful_run",
    "C09_resource_limits",
    "C09_multisig_keys_counted"
   ],
   "note": "Limits hold after every prefix of the run that was gone through; the witness shows they bind."
  },
  {
   "property": "C10",
   "status": "proved",
   "theorems": [
    "C10_counter_is_false_conditions",
    "C10_skipped_operations_have_no_effect",
    "C10_success_is_balanced"
   ],
   "note": "Counter = number of false conditions, skipped operations change nothing but the operation count, success implies balanced conditionals."
  },
  {
   "property": "C11",
   "status": "proved",
   "theorems": [
    "C11_budget_bounds_signature_operations",
    "C11_same_as_signed_budget"
   ],
   "note": "Against the signed BIP342 budget in the reference evaluator, and as a bound on the number of executed signature operations."
  },
  {
   "property": "C12",
   "status": "proved",
   "theorems": [
    "C12_result_is_ordered_matching",
    "C12_success_needs_wellformed_stack",
    "C12_verify_is_checkmultisig_then_verify",
    "C12_early_exit_refuted"
   ],
   "note": "Ordered matching characterisation; the difference with the reference client's early exit is proved as C12_early_exit_refuted."
  },
  {
   "property": "C13",
   "status": "proved",
   "theorems": [
    "C13_locktime_verify",
    "C13_sequence_verify",
    "C13_inactive_or_empty"
   ],
   "note": "BIP65/BIP112 predicates on the element bytes; state unchanged."
  },
  {
   "property": "C14",
   "status": "proved",
   "theorems": [
    "C14_every_byte_string_round_trips",
    "C14_parse_is_reference_scan",
    "C14_complete_operations_round_trip",
    "C14_prefixed_script_in_stream",
    "C14_prefixed_read_is_exact",
    "C14_truncated_prefixed_script_fails"
   ],
   "note": "Any byte string parses, round-trips, agrees with the reference scan; prefixed codec both directions; truncated prefix fails."
  },
  {
   "property": "C15",
   "status": "partial",
   "theorems": [
    "C15_nominal_push_pushes_the_data",
    "C15_minimal_push_pushes_the_data",
    "C15_minimal_push_of_zero_byte_refuted",
    "C15_minimal_push_is_shortest",
    "C15_nominal_push_is_shortest_data_push",
    "C15_is_minimal_push_matches_reference",
    "C15_minimal_predicate_zero_byte_refuted"
   ],
   "note": "Proved for all data except the single byte 0x00, for which the minimal push is refuted (becomes OP_0)."
  },
  {
   "property": "C16",
   "status": "proved",
   "theorems": [
    "C16_wire_format",
    "C16_round_trip",
    "C16_stripped_round_trip",
    "C16_size_is_length",
    "C16_accepted_bytes_are_canonical",
    "C16_serialization_is_injective",
    "C16_witness_free_read_agrees",
    "C16_witness_free_read_complete_partial",
    "C16_witness_free_read_complete_refuted",
    "C16_no_inputs_one_output_refuted",
    "C16_txid_from_wire_buffer"
   ],
   "note": "Round trip both forms, accepted bytes canonical, sizes, txid from wire buffer; two boundary facts recorded as _refuted (empty-element witness rejected by witness=false read; no-input one-output ambiguity) and the completeness of the witness=false read as _partial."
  },
  {
   "property": "C17",
   "status": "proved",
   "theorems": [
    "C17_header_codec",
    "C17_any_80_bytes_are_a_header",
    "C17_block_round_trip",
    "C17_block_wire_format",
    "C17_accepted_bytes_are_canonical",
    "C17_size_is_length",
    "C17_cached_hashes"
   ],
   "note": "Header/block codec, sizes, cached identity hashes."
  },
  {
   "property": "C18",
   "status": "partial",
   "theorems": [
    "C18_expand_is_satoshi",
    "C18_compress_is_satoshi_partial",
    "C18_compress_power_of_256_refuted",
    "C18_compress_never_negative",
    "C18_expand_agrees_on_encodings",
    "C18_truncates_partial",
    "C18_compress_monotone_partial",
    "C18_compress_monotone_refuted"
   ],
   "note": "Decoder proved equal to the Satoshi rule for all 2^32 inputs; encoder, truncation and monotonicity proved for every number that is not an exact power of 256, and refuted for those (they encode to an invalid target)."
  },
  {
   "property": "C19",
   "status": "proved",
   "theorems": [
    "C19_proof_is_expected_work",
    "C19_proof_antitone"
   ],
   "note": "For every 32-bit bits value."
  },
  {
   "property": "C20",
   "status": "partial",
   "theorems": [
    "C20_check_exact",
    "C20_verdict_unique",
    "C20_second_limit_refuted"
   ],
   "note": "Every sequence of calls with one set of limits; refuted for a second, different limit (function-local static)."
  },
  {
   "property": "C21",
   "status": "proved",
   "theorems": [
    "C21_median",
    "C21_permutation",
    "C21_half",
    "C21_of_chain",
    "C21_accept"
   ],
   "note": "median = element n/2 of the sorted window, permutation invariant, half bounds; along rolled chains; header::accept characterised exactly"
  },
  {
   "property": "C22",
   "status": "partial",
   "theorems": [
    "C22_target_within_limit",
    "C22_bip94_base",
    "C22_power_of_256_refuted",
    "C22_second_limit_refuted"
   ],
   "note": "within limit unconditionally; clamped timespan; exact retarget incl. testnet/BIP94/Litecoin overflow patch except powers of 256 (refuted) and the function-local static limit (refuted)"
  },
  {
   "property": "C23",
   "status": "partial",
   "theorems": [
    "C23_storm_refuted",
    "C23_ltc_time_warp_refuted"
   ],
   "note": "all values, retarget time, work and context equal; refuted at retarget heights with the block storm patch and with the ltc time warp patch"
  },
  {
   "property": "C24",
   "status": "partial",
   "theorems": [
    "C24_persists",
    "C24_other_branch",
    "C24_active_iff",
    "C24_block_agrees_partial",
    "C24_block_state_refuted",
    "C24_genesis_checkpoint_refuted",
    "C24_unconfigured_refuted"
   ],
   "note": "persistence and exactness on the header path; block path agrees away from checkpoint heights, refuted at them; genesis checkpoint and unconfigured-group discrepancies refuted"
  },
  {
   "property": "C25",
   "status": "proved",
   "theorems": [
    "C25_activation",
    "C25_bip90_freezes",
    "C25_minimum",
    "C25_header_version",
    "C25_negative_version_refuted"
   ],
   "note": "activation iff, bip90 freezing, minimum version; own version compared unsigned (refuted companion)"
  },
  {
   "property": "C26",
   "status": "proved",
   "theorems": [
    "C26_merkle_root_is_tree_root",
    "C26_malleated_has_shorter_original",
    "C26_equal_height_equal_root",
    "C26_checked_commitment_is_unique",
    "C26_single_copy_detected",
    "C26_two_level_copy_refuted"
   ],
   "note": "The transaction root determines the leaves up to a collision or the CVE-2012-2459 duplication; malleated64/32 flags characterised; check accepts only unmalleated blocks. C26_two_level_copy_refuted records F23: identify/is_malleated32 miss the copy [cb;a;b;c;x;x;x] of [cb;a;b;c;x]."
  },
  {
   "property": "C27",
   "status": "proved",
   "theorems": [
    "C27_branch_proves_leaf",
    "C27_no_branch_out_of_range",
    "C27_branch_binds_leaf"
   ],
   "note": "Every branch produced climbs to the root for its leaf, has the tree depth, and a branch that climbs to the root names the leaf up to a collision."
  },
  {
   "property": "C28",
   "status": "proved",
   "theorems": [
    "C28_forward_reference",
    "C28_internal_double_spend",
    "C28_check_accepts_exactly"
   ],
   "note": "Forward references and internal double spends are found exactly; an accepted block has distinct spent points and spends only earlier transactions of the block."
  },
  {
   "property": "C29",
   "status": "proved",
   "theorems": [
    "C29_accept_exact",
    "C29_missing_previous_output",
    "C29_saturation_refuted"
   ],
   "note": "accept succeeds exactly when every previous output is present and the exact integer sums satisfy out <= in, for sums below 2^64-1; C29_saturation_refuted shows the saturating sums admit a violation only at/above 2^64-1, which C61 shows no ledger reaches."
  },
  {
   "property": "C30",
   "status": "proved",
   "theorems": [
    "C30_claim_exact",
    "C30_accept_verdict"
   ],
   "note": "Exact claim limit (outputs of coinbase <= subsidy + sum of fees, sums below 2^64) and the verdict order of block accept."
  },
  {
   "property": "C31",
   "status": "proved",
   "theorems": [
    "C31_subsidy_halves",
    "C31_subsidy_without_bip42",
    "C31_total_issue",
    "C31_main_network"
   ],
   "note": "Halving closed form for every height/interval/initial value, with and without bip42; total issue bounded for every number of heights; 21 million bound on main network figures."
  },
  {
   "property": "C32",
   "status": "proved",
   "theorems": [
    "C32_absolute_lock"
   ],
   "note": "Locktime check of transaction::check(ctx) equals finality at the context's height and time (median time past under bip113)."
  },
  {
   "property": "C33",
   "status": "proved",
   "theorems": [
    "C33_relative_lock",
    "C33_internal_lock"
   ],
   "note": "BIP68 lock exactly as specified, for confirmed previous outputs (hypothesis: prevout height/mtp not above the spender's) and for spends within one block."
  },
  {
   "property": "C34",
   "status": "proved",
   "theorems": [
    "C34_confirm",
    "C34_coinbase_depth",
    "C34_own_coinbase"
   ],
   "note": "confirm succeeds iff coinbase, or unlocked and every spent output is confirmed, unspent below and 100 deep when from a coinbase; own coinbase outputs cannot be spent. The metadata is supplied by the caller (node store)."
  },
  {
   "property": "C35",
   "status": "proved",
   "theorems": [
    "C35_transaction_weight",
    "C35_block_weight"
   ],
   "note": "Transaction and block weight, virtual size, overweight test."
  },
  {
   "property": "C36",
   "status": "proved",
   "theorems": [
    "C36_transaction_cost",
    "C36_block_limit",
    "C36_accepted_block",
    "C36_accurate_is_no_more",
    "C36_patterns"
   ],
   "note": "Transaction counts equal the reference cost on script bytes (no saturation possible), block limit is on the exact sum; precondition bip141 implies bip16 (true of every activation)."
  },
  {
   "property": "C37",
   "status": "proved",
   "theorems": [
    "C37_encode",
    "C37_round_trip",
    "C37_accepts",
    "C37_text_round_trip",
    "C37_array",
    "C37_hash"
   ],
   "note": "Complete for base_16.ipp (chunk, array and hash forms)."
  },
  {
   "property": "C38",
   "status": "proved",
   "theorems": [
    "C38_encode",
    "C38_round_trip",
    "C38_accepts",
    "C38_text_round_trip",
    "C38_array"
   ],
   "note": "Complete for base_58.cpp."
  },
  {
   "property": "C39",
   "status": "partial",
   "theorems": [
    "C39_base64_encode",
    "C39_base64_round_trip",
    "C39_base64_canonical_refuted",
    "C39_base85_encode",
    "C39_base85_round_trip",
    "C39_base85_alphabet_refuted",
    "C39_base85_canonical_refuted",
    "C39_base32_encode",
    "C39_base32_round_trip",
    "C39_base32_symbols",
    "C39_base32_symbols_round_trip",
    "C39_base32_bounds_refuted",
    "C39_base32_canonical_refuted"
   ],
   "note": "Round trips and encodings proved. Decoders: refuted that accepted texts are canonical (base64, base85, base32), that base85 stays within its alphabet, and that base32 decoding stays within its 128-element table for characters above 127."
  },
  {
   "property": "C40",
   "status": "proved",
   "theorems": [
    "C40_field",
    "C40_verify",
    "C40_built",
    "C40_exact",
    "C40_four",
    "C40_three",
    "C40_text"
   ],
   "note": "verify accepts exactly the words congruent, over the 32 element field and modulo the BIP173 generator, to the BIP173/BIP350 constant (polynomial spec in AddressSpec.v, field tables proved equal to carry-less multiplication); built words verify and yield version and program; last six symbols are determined; every 1-4 symbol substitution is detected up to 89 symbols (version not switching zero/non-zero), every 1-3 symbol substitution including the version up to 71 symbols, also at the text level. The finite determinant tables are checked by the kernel; the lifting to all words, prefixes and error patterns is by linear algebra."
  },
  {
   "property": "C41",
   "status": "partial",
   "theorems": [
    "C41_accepts",
    "C41_from_parameters",
    "C41_encode",
    "C41_padding_refuted",
    "C41_long_prefix_refuted"
   ],
   "note": "Exact characterisation of accepted texts (iff, C41_accepts), encode/parse round trip in either case whenever the text fits 90 characters, construction rules. Refuted as stated: a superfluous zero symbol is accepted (5-7 unused bits, F28: C41_padding_refuted), and an address constructed with a long prefix encodes to an unparseable text (F29: C41_long_prefix_refuted)."
  },
  {
   "property": "C42",
   "status": "proved",
   "theorems": [
    "C42_round_trip",
    "C42_layout",
    "C42_encoded_set"
   ],
   "note": "Round trip of the coded set for every sorted list of uint64 and every exponent (0..255), BIP158 bit layout, and what set is encoded (SipHash modelled concretely, checked on its reference vector)."
  },
  {
   "property": "C43",
   "status": "partial",
   "theorems": [
    "C43_single",
    "C43_single_no_false_negative",
    "C43_stack_sound",
    "C43_stack_partial",
    "C43_stack_refuted",
    "C43_filter_computed",
    "C43_block_filter",
    "C43_empty_script",
    "C43_scripts_refuted",
    "C43_header"
   ],
   "note": "match_single: exact up to range collisions, no false negatives; block filter compute/match end to end (BIP158 genesis vector reproduced). match_stack: sound, finds the least hashed target; C43_stack_refuted / C43_scripts_refuted: FALSE NEGATIVES for several targets (iterator lag) - code defect, so the full claim is false of the code."
  },
  {
   "property": "C44",
   "status": "proved",
   "theorems": [
    "C44_strict",
    "C44_unique",
    "C44_lax",
    "C44_decode"
   ],
   "note": "is_valid_bip66 accepts exactly the strings of at most 72 bytes that are strict DER SEQUENCE{INTEGER r, INTEGER s} encodings of non-negative integers (spec der_signature); encoding is unique; parse_der_lax never over-reads, accepts exactly the lax grammar lax_signature and returns r,s reduced (overflow -> zero); strict decode is a restriction of lax decode."
  },
  {
   "property": "C45",
   "status": "proved",
   "theorems": [
    "C45_chacha20",
    "C45_initial",
    "C45_split_independent",
    "C45_inverse"
   ],
   "note": "chacha20: scalar and vector (4, 8, 16 lanes) paths, set_key, seek, crypt, stream, against RFC 8439; the 32-bit counter wraps as in the code. Overlapping but unequal in/out spans are not modelled."
  },
  {
   "property": "C46",
   "status": "proved",
   "theorems": [
    "C46_poly1305",
    "C46_split_independent"
   ],
   "note": "The five 26-bit limb implementation, scalar and 2/4/8 lane vector paths and the buffering, equals RFC 8439 Poly1305 for every key and every division into writes."
  },
  {
   "property": "C47",
   "status": "proved",
   "theorems": [
    "C47_keyed",
    "C47_encrypt",
    "C47_decrypt",
    "C47_authentic",
    "C47_round_trip",
    "C47_messages",
    "C47_chunks"
   ],
   "note": "chacha20_poly1305 encrypt/decrypt/stream against RFC 8439; fschacha20 and fschacha20_poly1305 against BIP 324 for every message history with interval > 0 (interval 0 rekeys after 2^32 messages in the code). The forgery resistance of the tag itself is a cryptographic assumption, not a claim: decrypt is shown to accept exactly the encryptions."
  },
  {
   "property": "C48",
   "status": "proved",
   "theorems": [
    "C48_chunking",
    "C48_double_chunking",
    "C48_after_flush",
    "C48_reset",
    "C48_midstate",
    "C48_limit_refuted"
   ],
   "note": "Any division of a message into writes, flush, double flush, use after a flush, reset and the midstate constructor, for SHA-1/256/512 with or without vectorisation and checked or not; C48_limit_refuted: the whole-block fast path of write skips the overflow test of a checked accumulator (F33)."
  },
  {
   "property": "C49",
   "status": "proved",
   "theorems": [
    "C49_is_add_overflow_exact",
    "C49_is_subtract_overflow_exact",
    "C49_is_multiply_overflow_exact",
    "C49_ceilinged_add_saturates",
    "C49_floored_subtract_saturates",
    "C49_ceilinged_multiply_saturates",
    "C49_safe_arithmetic_exact",
    "C49_limit_clamps",
    "C49_limit_between",
    "C49_mixed_sign_comparison",
    "C49_delta_saturates",
    "C49_absolute_exact",
    "C49_products"
   ],
   "note": "All operand values and widths; promotion, wrap and UB explicit. Mixed-type add/subtract overloads (place2/Explicit) are not modelled separately: they cast to one type first."
  },
  {
   "property": "C50",
   "status": "partial",
   "theorems": [
    "C50_floored_division",
    "C50_ceilinged_division",
    "C50_ceilinged_modulo",
    "C50_ceilinged_modulo_large_divisor_refuted",
    "C50_truncated_division"
   ],
   "note": "Same-type operands. Full claim proved for floored/truncated/ceilinged divide and for ceilinged_modulo except unsigned divisors above half range, where it is refuted (C50_ceilinged_modulo_large_divisor_refuted)."
  },
  {
   "property": "C51",
   "status": "partial",
   "theorems": [
    "C51_log2",
    "C51_log256",
    "C51_log256_uintx",
    "C51_floored_log_general",
    "C51_ceilinged_log_general_refuted",
    "C51_power",
    "C51_power_exact"
   ],
   "note": "Holds for base 2/256 (all overloads) and floored_log any base and power; general-base ceilinged_log is refuted (returns 1 for log_10 11)."
  },
  {
   "property": "C52",
   "status": "proved",
   "theorems": [
    "C52_shift_left",
    "C52_shift_right",
    "C52_rotations",
    "C52_rotations_inverse",
    "C52_rotl_rotr_nominal",
    "C52_get_set",
    "C52_masks",
    "C52_results_determined",
    "C52_results_in_range",
    "C52_left_shift_overflow",
    "C52_word_packing",
    "C52_byteswap"
   ],
   "note": "Positional specs for all widths; byte swaps for 16/32/64."
  },
  {
   "property": "C53",
   "status": "proved",
   "theorems": [
    "C53_subset",
    "C53_sufficient",
    "C53_smallest_single",
    "C53_fewest",
    "C53_individual",
    "C53_exists"
   ],
   "note": "select as a relation (std::partition/std::sort leave the order of equal elements open), amounts 64-bit. C53_fewest additionally proves that no selection with fewer coins suffices; C53_exists shows the relation is total. Aliasing of the output with the input (out.points.clear() first) is not modelled."
  },
  {
   "property": "C54",
   "status": "proved",
   "theorems": [
    "C54_dictionaries",
    "C54_shared_words",
    "C54_from_entropy",
    "C54_from_words",
    "C54_round_trip",
    "C54_detect",
    "C54_seed"
   ],
   "note": "Over the ten word lists of the library, copied word for word and checked by computation (2048 distinct words each, sorted when flagged). Unicode normalization (try_normalize, NFKD) is a parameter: C54_round_trip and C54_detect assume it leaves dictionary words unchanged."
  },
  {
   "property": "C55",
   "status": "proved",
   "theorems": [
    "C55_script_code_bytes",
    "C55_kept_operations",
    "C55_separator_moves_start"
   ],
   "note": "Op-level stripping equals byte-level FindAndDelete plus separator removal."
  },
  {
   "property": "C56",
   "status": "proved",
   "theorems": [
    "C56_checksum",
    "C56_value",
    "C56_from_string",
    "C56_round_trip",
    "C56_output",
    "C56_output_exact",
    "C56_extract_refuted",
    "C56_extract_input_refuted"
   ],
   "note": "For any 32 byte hash function: checksum verification accepts exactly x ++ first four hash bytes; the payment address parser accepts exactly the base58 text of prefix ++ 20 byte key hash ++ checksum and round trips; the output script of an address has exactly that address and only such scripts yield addresses. Refuted: extract_input takes the signature instead of the key (C56_extract_input_refuted); extract of a witness output yields a script hash address (C56_extract_refuted)."
  },
  {
   "property": "C57",
   "status": "partial",
   "theorems": [
    "C57_reader_history",
    "C57_reader_sticky",
    "C57_unaligned_bytes",
    "C57_aligned_bytes",
    "C57_writer_packs",
    "C57_flush_idempotent",
    "C57_write_bytes_identity",
    "C57_fields_round_trip",
    "C57_peek_partial",
    "C57_peek_after_rewind_refuted",
    "C57_rewind_unread_refuted"
   ],
   "note": "Reader histories, unaligned and aligned bytes, writer packing, round trip: proved. Peek after rewinding to a byte boundary, and rewind before any read, are refuted with witnesses; the reader history theorem says nothing for the latter."
  },
  {
   "property": "C58",
   "status": "proved",
   "theorems": [
    "C58_bloom_no_false_negative",
    "C58_bloom_screened_iff",
    "C58_bloom_selection",
    "C58_bloom_collision",
    "C58_sieve_no_false_negative",
    "C58_sieve_screen_result",
    "C58_sieve_capacity",
    "C58_sieve_screened_iff",
    "C58_sieve_masks"
   ],
   "note": "bloom<M,K> for all 1<=K<=M<=64; sieve<N,S> for all S>=1, N-S>=2, N<=64 with 2S <= width of the sieve's integer type (beyond that the compile-time offset table saturates and the table is not modelled as correct). Includes generation of the mask table. bloom/sieve values restricted to those reachable from the empty filter."
  },
  {
   "property": "C59",
   "status": "partial",
   "theorems": [
    "C59_coinbase_pattern",
    "C59_matches_reference_partial",
    "C59_small_heights_refuted"
   ],
   "note": "Exact characterisation proved for all heights below 2^63; agreement with the reference rule holds above 16 only, C59_small_heights_refuted is F24."
  },
  {
   "property": "C60",
   "status": "proved",
   "theorems": [
    "C60_witness_commitment",
    "C60_commitment_exists_for_every_block"
   ],
   "note": "Both directions, for every block of serialisable transactions; hash function is a parameter."
  },
  {
   "property": "C61",
   "status": "proved",
   "theorems": [
    "C61_accepted_block_is_a_ledger_step",
    "C61_supply",
    "C61_cap"
   ],
   "note": "Every history of blocks passing check, populate and accept keeps the unspent outputs within the issued subsidies; cap for every history under bip42. Hypotheses: the node's store provides the ledger's outputs, hash acyclicity; script validity (connect) not needed for supply."
  },
  {
   "property": "C62",
   "status": "partial",
   "theorems": [
    "C62_connect_partial",
    "C62_missing",
    "C62_accepts_only",
    "C62_same_verdict_partial",
    "C62_inactive_witness_refuted"
   ],
   "note": "connect is proven equal to VerifyScript for every script, witness and flag set with segwit active or no witness (C62_connect_partial); against the reference's CHECKMULTISIG early exit it accepts only what the reference accepts (C62_accepts_only) and agrees when bip66 is off or no CHECKMULTISIG is evaluated (C62_same_verdict_partial; the gap is C12_early_exit_refuted). Refuted: a witness present while segwit is inactive is refused instead of ignored (C62_inactive_witness_refuted). Signature batching: see C76."
  },
  {
   "property": "C63",
   "status": "proved",
   "theorems": [
    "C63_output_exclusive",
    "C63_builders",
    "C63_null_data",
    "C63_null_data_refuted",
    "C63_input_refuted",
    "C63_public_key",
    "C63_refuses"
   ],
   "note": "Output templates are pairwise exclusive on parsed scripts and the builders produce them (bytes, re-parse, pattern). Refuted sub-claims proved as theorems: to_pay_null_data_pattern of one byte 0..16 or 0x81 does not match its own template (C63_null_data_refuted); the comment that output patterns are input-unambiguous is false (C63_input_refuted)."
  },
  {
   "property": "C64",
   "status": "proved",
   "theorems": [
    "C64_hash",
    "C64_double_hash",
    "C64_parts",
    "C64_merkle"
   ],
   "note": "Every one-shot, two-part, short and double form and the in-place merkle hash/root, for every vector configuration, against an independent FIPS 180-4 specification; native (SHA-NI) instructions are not modelled."
  },
  {
   "property": "C65",
   "status": "proved",
   "theorems": [
    "C65_hash",
    "C65_chunking",
    "C65_reset"
   ],
   "note": "One-shot forms, any division into writes, and reset, against an independent RIPEMD specification; abc vectors computed."
  },
  {
   "property": "C66",
   "status": "partial",
   "theorems": [
    "C66_hmac",
    "C66_pbkdf2",
    "C66_hkdf",
    "C66_hkdf_maximum_refuted"
   ],
   "note": "HMAC (any writes) and PBKDF2 proved for all five algorithms; HKDF proved up to 254 blocks. C66_hkdf_maximum_refuted: for 254*hlen < size <= 255*hlen, which the template admits, the uint8_t loop counter wraps and the loop never ends (F34)."
  },
  {
   "property": "C67",
   "status": "proved",
   "theorems": [
    "C67_functions",
    "C67_djb2"
   ],
   "note": "All forms, for every vector configuration; scrypt_hash and merkle_root are in C68 and C64."
  },
  {
   "property": "C68",
   "status": "partial",
   "theorems": [
    "C68_scrypt",
    "C68_out_of_memory_refuted"
   ],
   "note": "C68_scrypt: RFC 7914 output for all 2^k, r, p, sizes and visiting orders when the working sets are allocated. The failure half is false of the code: C68_out_of_memory_refuted shows a call whose working sets cannot be allocated still returns success with an output that has had no memory-hard mixing. Assumes the P*128*r bytes, password and salt below 2^61-2^41 bytes."
  },
  {
   "property": "C69",
   "status": "proved",
   "theorems": [
    "C69_from_entropy",
    "C69_from_words",
    "C69_round_trip",
    "C69_words_round_trip",
    "C69_seed_text",
    "C69_stretch",
    "C69_detect_refuted"
   ],
   "note": "English and portuguese dictionaries, SHA-256 proved equal to FIPS 180-4. F36 (C69_detect_refuted): when the language is not given, a portuguese sentence made of words shared with the english dictionary is silently read as english, giving another entropy. The unicode normalization of the sentence is a parameter. Stretching is proved for seed texts under 2^59 bytes (the library's are at most 72)."
  },
  {
   "property": "C70",
   "status": "partial",
   "theorems": [
    "C70_history",
    "C70_interpreter",
    "C70_separator_refuted",
    "C70_unpopulated_refuted"
   ],
   "note": "legacy, BIP143 and BIP341/342 hashes proven equal to the specification for every history of requests, with the caches, and for the interpreter; holds while no code separator offset is left in a previous output's script object (C70_separator_refuted: a code separator executed in a legacy input's prevout script leaks into the scripts hash of a taproot input) and while previous outputs are populated (C70_unpopulated_refuted)"
  },
  {
   "property": "C71",
   "status": "partial",
   "theorems": [
    "C71_accepts",
    "C71_unique",
    "C71_codec_accepts",
    "C71_transactions",
    "C71_block",
    "C71_identify",
    "C71_commitment",
    "C71_empty_elements_refuted",
    "C71_trailing_refuted"
   ],
   "note": "Proved: acceptance (exact), the shown transactions and block, identify, and the witness commitment verdict. Refuted as such: a block the object codec accepts may be refused by the view (witness stacks of only empty elements: C71_empty_elements_refuted), and data/size with witnesses include bytes after the block (C71_trailing_refuted)."
  },
  {
   "property": "C72",
   "status": "partial",
   "theorems": [
    "C72_master",
    "C72_objects",
    "C72_derive_private",
    "C72_derive_public",
    "C72_not_a_point",
    "C72_neuter",
    "C72_path",
    "C72_private_text",
    "C72_public_text",
    "C72_checksum_refuted",
    "C72_point_refuted",
    "C72_stream_refuted"
   ],
   "note": "Over an abstract cyclic group of prime order (libsecp256k1 not modelled; curve_ok). Refuted: the checksum of an extended key is written but never verified (C72_checksum_refuted: any 4 bytes are accepted), an extended public key with an off-curve point is a valid object (C72_point_refuted), and the stream operators discard the parsed key (C72_stream_refuted)."
  },
  {
   "property": "C73",
   "status": "partial",
   "theorems": [
    "C73_wif",
    "C73_accepts",
    "C73_range_refuted",
    "C73_version_refuted",
    "C73_public",
    "C73_address",
    "C73_public_accepts",
    "C73_point_refuted",
    "C73_text_refuted"
   ],
   "note": "Over an abstract cyclic group (curve_ok, libsecp256k1 not modelled). Refuted: a WIF secret at or above the group order is accepted (C73_range_refuted); keys made from a scalar or from entropy carry WIF version 0 (C73_version_refuted); 33 bytes that begin with 2 or 3 but are no point are a valid public key (C73_point_refuted); encoded() of an uncompressed key that is no point reads uninitialized memory (C73_text_refuted)."
  },
  {
   "property": "C74",
   "status": "partial",
   "theorems": [
    "C74_scalars_partial",
    "C74_zero_refuted",
    "C74_int64",
    "C74_points",
    "C74_sum",
    "C74_homomorphism",
    "C74_identity_refuted"
   ],
   "note": "Over an abstract cyclic group (curve_ok). Refuted: 0 + y and 0 - y are 0 (C74_zero_refuted, so addition is not commutative), and the null point is not an identity (C74_identity_refuted)."
  },
  {
   "property": "C75",
   "status": "proved",
   "theorems": [
    "C75_encrypt",
    "C75_decrypt",
    "C75_invert"
   ],
   "note": "Model follows src/crypto/aes256.cpp function by function (in-place loops as assignment sequences); the specification defines the S-box from the field inverse rather than as a table; FIPS 197 C.3 vector computed."
  },
  {
   "property": "C76",
   "status": "proved",
   "theorems": [
    "C76_connect",
    "C76_refused",
    "C76_fallback",
    "C76_batch",
    "C76_multisig_script",
    "C76_signature_script",
    "C76_condition"
   ],
   "note": "Model: the interpreter with a capture (BatchModel.v), run in lockstep with the interpreter without (BatchProofs*.v). Assumes that compressing a 65 byte key does not change ECDSA verification (a hypothesis on the two secp256k1 operations). The store that expands groups to rows is another library: the tables are those its documented layout describes (BatchSpec.v), a group's rows in any order. Cancellation, telemetry and accelerated column verifiers (assumed to verify each row) are not modelled."
  },
  {
   "property": "C77",
   "status": "partial",
   "theorems": [
    "C77_words",
    "C77_operation",
    "C77_script",
    "C77_truncated_text",
    "C77_truncated_script_refuted",
    "C77_decimal_partial",
    "C77_decimal_range",
    "C77_minimum_refuted",
    "C77_names",
    "C77_accepted",
    "C77_bare_push_refuted",
    "C77_witness_text",
    "C77_witness_round_trip"
   ],
   "note": "Proved for complete operations; refuted on three corners: a script with a truncated last push is printed with round brackets but read with angle brackets, so its text is never read back (C77_truncated_script_refuted, for every such script); the text -9223372036854775808 is undefined behaviour (C77_minimum_refuted); the bare word push_N (N in 1..75) is accepted without data and its bytes are a different script (C77_bare_push_refuted)."
  },
  {
   "property": "C78",
   "status": "proved",
   "theorems": [
    "C78_grammar",
    "C78_exact",
    "C78_round_up",
    "C78_encode",
    "C78_round_trip"
   ],
   "note": "exact characterization of strict and rounding decode, canonical encode, round trip"
  },
  {
   "property": "C79",
   "status": "proved",
   "theorems": [
    "C79_verify",
    "C79_sign",
    "C79_defined",
    "C79_short_proofs_refuted",
    "C79_sign_refuted"
   ],
   "note": "verification = closed ring walks; sign verifies unless a challenge hash is no scalar; refuted: short proofs read out of bounds, sign with an out of range challenge"
  },
  {
   "property": "C80",
   "status": "partial",
   "theorems": [
    "C80_text",
    "C80_data",
    "C80_equal",
    "C80_index_partial",
    "C80_index_refuted"
   ],
   "note": "Text, data, equality and indexing within the string are proved. Indexing past the end is refuted: the byte index is compared with the number of bits, so the read is outside the bytes."
  },
  {
   "property": "C81",
   "status": "proved",
   "theorems": [
    "C81_ephemeral",
    "C81_script",
    "C81_shared",
    "C81_uncover",
    "C81_payment",
    "C81_sender_fails"
   ],
   "note": "Over any curve in the sense of EcModel.curve_ok and any hash functions of the right output size; null data matching and serialization through C63/C14."
  },
  {
   "property": "C82",
   "status": "partial",
   "theorems": [
    "C82_decode",
    "C82_text",
    "C82_made",
    "C82_round_trip_partial",
    "C82_round_trip_refuted",
    "C82_order_refuted"
   ],
   "note": "Decoding is characterised exactly. The round trip is proved for addresses whose scan key is not a spend key or is only the first; it is refuted for a repeated scan key (text not decodable) and for a scan key in another place (order changed)."
  },
  {
   "property": "C83",
   "status": "partial",
   "theorems": [
    "C83_encrypt",
    "C83_sound",
    "C83_token",
    "C83_token_lot_partial",
    "C83_token_lot_refuted"
   ],
   "note": "All proved except that create_token with a lot reports success when the derived secret is not valid (C83_token_lot_refuted)."
  },
  {
   "property": "C84",
   "status": "partial",
   "theorems": [
    "C84_versions",
    "C84_from_entropy",
    "C84_verify",
    "C84_prefix",
    "C84_from_words",
    "C84_round_trip_partial",
    "C84_seed",
    "C84_to_prefix_partial",
    "C84_round_trip_refuted",
    "C84_to_prefix_refuted"
   ],
   "note": "Proved: generation is exactly the first acceptable candidate, self confirmation, uniqueness of versions, reading of words, the prefix found, the seed. Partial because refuted: the round trip fails in portuguese (C84_round_trip_refuted; proved for every other dictionary), and to_prefix is wrong on words that are not already normal (C84_to_prefix_refuted; proved for normal words). Unicode normalizations are any functions."
  },
  {
   "property": "C85",
   "status": "proved",
   "theorems": [
    "C85_magic",
    "C85_preimage",
    "C85_verify",
    "C85_sign",
    "C85_sign_address",
    "C85_sign_invalid",
    "C85_wif",
    "C85_malleable"
   ],
   "note": "Verification as an equivalence with the ECDSA equation for the address's key, sign then verify (secret, key object, WIF text), magic bytes, injective preimage, malleability. libsecp256k1's group operations are the curve parameter; the RFC 6979 nonce and the hashes are any functions of the right ranges."
  },
  {
   "property": "C86",
   "status": "partial",
   "theorems": [
    "C86_total",
    "C86_in_range",
    "C86_decomposition",
    "C86_same_form",
    "C86_idempotent",
    "C86_valid",
    "C86_utf8",
    "C86_ascii",
    "C86_text",
    "C86_hangul",
    "C86_pairs",
    "C86_invalid_refuted",
    "C86_class_refuted"
   ],
   "note": "All four forms over the library's tables. Partial: refuted for text that is not UTF-8 (cleared to empty) and for marks newer than the class table (Unicode 13 classes with Unicode 15 decompositions). boost's UTF conversion is modelled by its documentation; case folding is not modelled."
  },
  {
   "property": "C87",
   "status": "partial",
   "theorems": [
    "C87_accepts",
    "C87_fields",
    "C87_amount",
    "C87_setters",
    "C87_round_trip",
    "C87_equality_partial",
    "C87_equality_refuted"
   ],
   "note": "Proved for all component lists and setter histories. Equality of objects is partial: operator== also compares whether a scheme was read, which the text does not show (C87_equality_refuted). The URL library is an oracle with a stated law."
  },
  {
   "property": "C88",
   "status": "partial",
   "theorems": [
    "C88_read",
    "C88_text",
    "C88_round_trip",
    "C88_segments",
    "C88_grammar_refuted",
    "C88_order"
   ],
   "note": "All well-formed texts, all versions and the order are proved; that only well-formed texts are accepted is refuted (C88_grammar_refuted: trailing characters, empty parts and a plus sign are ignored)."
  },
  {
   "property": "C89",
   "status": "partial",
   "theorems": [
    "C89_at",
    "C89_under",
    "C89_conflict_partial",
    "C89_conflict_refuted",
    "C89_from",
    "C89_read",
    "C89_round_trip"
   ],
   "note": "is_conflict is partial: it looks only at the first checkpoint of the height (C89_conflict_refuted), exact when heights do not repeat with different hashes. Everything else is proved; acceptance of texts other than hash:height is not characterized."
  },
  {
   "property": "C90",
   "status": "partial",
   "theorems": [
    "C90_accepts",
    "C90_image_partial",
    "C90_inch_refuted"
   ],
   "note": "Acceptance is proved in full and the image as a reader sees it, except the unit: 72 pixels per inch is refuted, since the file says no absolute unit."
  },
  {
   "property": "C91",
   "status": "partial",
   "theorems": [
    "C91_succeeds",
    "C91_json_partial",
    "C91_range_refuted",
    "C91_escape_refuted",
    "C91_unambiguous_partial"
   ],
   "note": "When writing succeeds is proved in full; that the text is JSON of the values is proved for strings and names that need no escape, and refuted for the others (nothing is escaped). The documented number range is refuted at both ends."
  },
  {
   "property": "C92",
   "status": "proved",
   "theorems": [
    "C92_siphash",
    "C92_key"
   ],
   "note": "SipHash-2-4 as published, for all keys and messages."
  },
  {
   "property": "C93",
   "status": "proved",
   "theorems": [
    "C93_search",
    "C93_insert",
    "C93_distinct",
    "C93_is_sorted",
    "C93_sets",
    "C93_part",
    "C93_starts"
   ],
   "note": "For every element type with a total order; reverse, projection, pop and deep_equal are not modelled."
  },
  {
   "property": "C94",
   "status": "partial",
   "theorems": [
    "C94_constructor",
    "C94_round_trip",
    "C94_equality",
    "C94_transitive_refuted",
    "C94_mapped_refuted"
   ],
   "note": "Construction, round trip (under stated laws of the address library) and the meaning of comparison are proved in full. Transitivity, and equality of authorities with the same text, are refuted."
  }
 ]
}