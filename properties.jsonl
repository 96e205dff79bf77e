{"id": "C01", "title": "Variable-length integer codec", "statement": "Writing any 64-bit value with write_variable and reading it back with read_variable returns the same value, consumes exactly variable_size(value) bytes and leaves the rest of the stream untouched; and read_variable accepts no other encoding: any byte prefix it accepts is exactly the one write_variable produces (non-minimal encodings invalidate the reader).", "quantifier": "every uint64 value, every stream suffix, every byte string", "why_tests_cant": "The input space is unbounded or astronomically large; unit tests sample a handful of values.", "anchors": ["include/bitcoin/system/impl/stream/streamers/byte_reader.ipp: read_variable", "include/bitcoin/system/impl/stream/streamers/byte_writer.ipp: write_variable", "include/bitcoin/system/impl/serial/serialize.ipp / size helpers: variable_size"]}
{"id": "C02", "title": "Fixed-width endian integer codec", "statement": "to_little_endian/to_big_endian produce exactly the width of the integer type, from_* inverts to_* for every value, big-endian is the reverse of little-endian, and reading N bytes from a stream yields the positional value of those bytes.", "quantifier": "every width and every value", "why_tests_cant": "The input space is unbounded or astronomically large; unit tests sample a handful of values.", "anchors": ["include/bitcoin/system/impl/endian/integers.ipp", "include/bitcoin/system/impl/endian/integrals.ipp", "include/bitcoin/system/impl/stream/streamers/byte_reader.ipp: read_little_endian, read_big_endian"]}
{"id": "C03", "title": "Byte reader never reads past its limit or the end", "statement": "For every sequence of reads, skips and rewinds on a byte reader over a memory source, once an operation exceeds the remaining limit or the source the reader becomes and stays invalid until explicitly repositioned; while valid, the bytes returned are exactly the source bytes at the tracked position.", "quantifier": "every source, every limit, every sequence of operations", "why_tests_cant": "Operation histories are unbounded.", "anchors": ["include/bitcoin/system/impl/stream/streamers/byte_reader.ipp"]}
{"id": "C04", "title": "read_line splits at the terminator", "statement": "read_line(end) returns exactly the bytes preceding the first occurrence of the terminator and leaves the position just after it.", "quantifier": "every source and every non-empty terminator", "why_tests_cant": "The input space is unbounded or astronomically large; unit tests sample a handful of values.", "anchors": ["include/bitcoin/system/impl/stream/streamers/byte_reader.ipp: read_line, line_length"]}
{"id": "C05", "title": "Script number codec", "statement": "Encoding any stack integer as a byte vector and decoding it returns the same integer; the encoding is minimal and sign-magnitude little-endian; decoding with an N-byte limit rejects exactly the vectors longer than N bytes, and an integer already on the stack is rejected by the limit exactly when its byte encoding would be.", "quantifier": "every int64 (except the excluded minimum) and every byte vector", "why_tests_cant": "The input space is unbounded or astronomically large; unit tests sample a handful of values.", "anchors": ["include/bitcoin/system/impl/machine/number_chunk.ipp", "include/bitcoin/system/impl/machine/number_integer.ipp", "include/bitcoin/system/impl/machine/number_boolean.ipp"]}
{"id": "C06", "title": "Script truthiness", "statement": "A stack element is true exactly when its byte encoding contains a nonzero byte other than a lone trailing sign byte 0x80, whatever typed representation (bool, int64, chunk) holds it; minimal and strict boolean interpretation agree with the byte encoding likewise.", "quantifier": "every stack element in every representation", "why_tests_cant": "The input space is unbounded or astronomically large; unit tests sample a handful of values.", "anchors": ["include/bitcoin/system/impl/machine/number_boolean.ipp", "include/bitcoin/system/impl/machine/stack_variant.ipp: peek_bool, peek_strict_bool, peek_minimal_bool"]}
{"id": "C07", "title": "Typed stack is observationally a byte-vector stack", "statement": "Running any script on the typed (bool/int64/chunk) stack gives the same outcome (success or failure) and the same stacks byte for byte, as running it on a plain stack of byte vectors under the reference (Satoshi) semantics of each opcode.", "quantifier": "every script, initial stack, flag set and oracle for signature checks and hashes", "why_tests_cant": "Every program and stack is an input; tests execute a finite list of scripts.", "anchors": ["include/bitcoin/system/impl/machine/interpreter.ipp", "include/bitcoin/system/impl/machine/stack_variant.ipp", "include/bitcoin/system/impl/machine/program.ipp"]}
{"id": "C08", "title": "Interpreter never pops an empty stack", "statement": "No script evaluation reaches a stack access (peek, pop, swap, erase) outside the current stack, nor an alternate-stack or condition-stack pop when empty: the undefined-behaviour outcome is unreachable.", "quantifier": "every script, initial stack and flag set", "why_tests_cant": "Absence of undefined behaviour over all programs is not testable.", "anchors": ["include/bitcoin/system/impl/machine/interpreter.ipp", "include/bitcoin/system/impl/machine/stack.ipp", "include/bitcoin/system/impl/machine/program.ipp"]}
{"id": "C09", "title": "Interpreter resource limits", "statement": "If a script run succeeds then at every step the combined stack size was at most 1000, the counted operations (including multisig key counts) were at most 201 unless tapscript is active, and every executed or skipped push was at most 520 bytes.", "quantifier": "every script, initial stack and flag set", "why_tests_cant": "The input space is unbounded or astronomically large; unit tests sample a handful of values.", "anchors": ["include/bitcoin/system/impl/machine/interpreter_run.ipp: run", "include/bitcoin/system/impl/machine/program.ipp: is_stack_overflow, ops_increment"]}
{"id": "C10", "title": "Conditional execution counter", "statement": "The O(1) negative-condition counter is always equal to the number of false entries on the condition stack, so an operation executes exactly when every enclosing branch is taken; a script that succeeds has balanced conditionals.", "quantifier": "every script and every prefix of its execution", "why_tests_cant": "Invariant over all reachable states.", "anchors": ["include/bitcoin/system/impl/machine/program.ipp: begin_if, else_if_, end_if_, is_success"]}
{"id": "C11", "title": "Tapscript signature budget", "statement": "With tapscript active, a run whose initial witness has serialized size w performs at most (50+w)/50 successful non-empty signature operations; the zero-based unsigned budget behaves exactly as the signed BIP342 budget.", "quantifier": "every script and witness size", "why_tests_cant": "The input space is unbounded or astronomically large; unit tests sample a handful of values.", "anchors": ["include/bitcoin/system/impl/machine/program.ipp: sigops_increment", "include/bitcoin/system/impl/machine/program_construct.ipp"]}
{"id": "C12", "title": "CHECKMULTISIG matches the reference algorithm", "statement": "op_check_multisig yields the same outcome (true/false pushed, or script failure) as the consensus reference algorithm for the same keys, signatures and flags.", "quantifier": "every list of keys, signatures and every verification oracle", "why_tests_cant": "All interleavings of matching/non-matching keys with malformed signatures.", "anchors": ["include/bitcoin/system/impl/machine/interpreter.ipp: op_check_multisig, op_check_multisig_verify"]}
{"id": "C13", "title": "CHECKLOCKTIMEVERIFY / CHECKSEQUENCEVERIFY rules", "statement": "CLTV succeeds exactly when BIP65 permits and CSV exactly when BIP112 permits, and neither changes the stack.", "quantifier": "every stack top, locktime, sequence, version and flag set", "why_tests_cant": "The input space is unbounded or astronomically large; unit tests sample a handful of values.", "anchors": ["include/bitcoin/system/impl/machine/interpreter.ipp: op_check_locktime_verify, op_check_sequence_verify"]}
{"id": "C14", "title": "Operation and script codec", "statement": "Every script byte string parses into operations that serialize back to the same bytes; every well-formed operation list parses back from its serialization; serialized_size is the number of bytes written.", "quantifier": "every byte string and operation list", "why_tests_cant": "The input space is unbounded or astronomically large; unit tests sample a handful of values.", "anchors": ["src/chain/operation.cpp", "src/chain/script.cpp"]}
{"id": "C15", "title": "Minimal/nominal push encodings", "statement": "The minimal push opcode chosen for any data (bounded by uint32) yields an operation that evaluates to that data and no shorter push operation does; nominal encoding is the size-based form.", "quantifier": "every data push", "why_tests_cant": "The input space is unbounded or astronomically large; unit tests sample a handful of values.", "anchors": ["src/chain/operation.cpp: is_minimal_push, opcode_from_data", "include/bitcoin/system/impl/chain/operation_patterns.ipp"]}
{"id": "C16", "title": "Transaction codec", "statement": "Deserializing the serialization of any well-formed transaction (legacy or segregated) returns the same transaction and consumes exactly serialized_size bytes; conversely, any accepted byte string re-serializes (with witness) to the bytes consumed.", "quantifier": "every transaction, every byte string", "why_tests_cant": "The input space is unbounded or astronomically large; unit tests sample a handful of values.", "anchors": ["src/chain/transaction.cpp: from_data, to_data", "src/chain/input.cpp", "src/chain/output.cpp", "src/chain/witness.cpp", "src/chain/point.cpp"]}
{"id": "C17", "title": "Header and block codec", "statement": "Header and block serialization round-trip for every value and produce exactly serialized_size bytes; accepted bytes re-serialize identically.", "quantifier": "every header/block, every byte string", "why_tests_cant": "The input space is unbounded or astronomically large; unit tests sample a handful of values.", "anchors": ["src/chain/header.cpp", "src/chain/block.cpp: from_data, to_data"]}
{"id": "C18", "title": "Compact difficulty codec", "statement": "compress never yields a negative mantissa; expand(compress(x)) truncates x to its leading (at most 3) significant bytes, i.e. it is at most x and differs by less than one unit of the retained precision; compress is monotone; expand agrees with the Satoshi rule on every encodable value that can appear in a valid header and returns zero for negatives and overflow.", "quantifier": "every 32-bit compact value and every 256-bit target", "why_tests_cant": "2^256 targets.", "anchors": ["include/bitcoin/system/impl/chain/compact.ipp", "include/bitcoin/system/impl/math/ or radix base256e"]}
{"id": "C19", "title": "Block proof value", "statement": "header.proof equals floor(2^256/(target+1)) for every valid target, and is zero for invalid bits, with no 256-bit overflow.", "quantifier": "every 32-bit bits value", "why_tests_cant": "2^32 values with 256-bit arithmetic.", "anchors": ["src/chain/header.cpp: proof"]}
{"id": "C20", "title": "Proof of work acceptance", "statement": "header.check rejects exactly the headers whose bits are invalid, exceed the limit, or whose hash as a little-endian integer exceeds the target.", "quantifier": "every header and limit", "why_tests_cant": "The input space is unbounded or astronomically large; unit tests sample a handful of values.", "anchors": ["src/chain/header.cpp: is_invalid_proof_of_work"]}
{"id": "C21", "title": "Median time past", "statement": "median_time_past is the element at index n/2 of the ascending ordering of the (up to 11) preceding timestamps; it is invariant under permutation and at least half of the timestamps are <= it.", "quantifier": "every list of timestamps", "why_tests_cant": "The input space is unbounded or astronomically large; unit tests sample a handful of values.", "anchors": ["src/chain/chain_state.cpp: median_time_past"]}
{"id": "C22", "title": "Retarget bounds", "statement": "The timespan used in a retarget is clamped to [minimum,maximum], the new target never exceeds the limit, and no 256-bit overflow occurs for any target not above the limit.", "quantifier": "every target, timestamps and (sane) settings", "why_tests_cant": "The input space is unbounded or astronomically large; unit tests sample a handful of values.", "anchors": ["src/chain/chain_state.cpp: work_required_retarget, retarget_timespan"]}
{"id": "C23", "title": "Chain state promotion agrees with construction from history", "statement": "Rolling chain state forward header by header yields the same median time past, work required, versions sample and retarget timestamp as constructing the state from the stored history at that height.", "quantifier": "every chain of headers and every height", "why_tests_cant": "Histories are unbounded.", "anchors": ["src/chain/chain_state.cpp: to_pool, to_header, get_map"]}
{"id": "C24", "title": "Rule activation at checkpoints persists", "statement": "After a header whose hash is the configured BIP9 checkpoint is connected, its rules are active for that block and every later block; block-state and header-state construction agree.", "quantifier": "every chain extending the checkpoint", "why_tests_cant": "Histories are unbounded.", "anchors": ["src/chain/chain_state.cpp: to_block, to_header, activation"]}
{"id": "C25", "title": "BIP34 majority activation and enforcement", "statement": "Rule activation requires at least the threshold count of signalling versions (signed comparison) in the sample; enforcement implies minimum version; bip90 freezes them by height.", "quantifier": "every version history", "why_tests_cant": "The input space is unbounded or astronomically large; unit tests sample a handful of values.", "anchors": ["src/chain/chain_state.cpp: activation", "include/bitcoin/system/chain/context.hpp"]}
{"id": "C26", "title": "Merkle root malleation detection", "statement": "If is_malleated32 holds for a block then removing the repeated tail yields a different transaction list with the same merkle root; conversely two distinct equal-depth lists of transaction hashes have the same merkle root only if one is a malleation of the other or the hash function collides.", "quantifier": "every transaction list", "why_tests_cant": "Unbounded lists and hash functions.", "anchors": ["src/chain/block.cpp: is_malleated32, is_malleable32, malleated32_size", "include/bitcoin/system/impl/hash/sha/algorithm_merkle.ipp"]}
{"id": "C27", "title": "Merkle branch proves membership", "statement": "For every position the merkle branch folded with the leaf at that position gives the merkle root.", "quantifier": "every leaf list and position", "why_tests_cant": "The input space is unbounded or astronomically large; unit tests sample a handful of values.", "anchors": ["src/chain/block.cpp: merkle_branch"]}
{"id": "C28", "title": "Block ordering and double spend checks", "statement": "is_forward_reference holds exactly when some non-coinbase transaction spends an output of a later transaction; is_internal_double_spend exactly when two inputs of non-coinbase transactions share an outpoint; check rejects both.", "quantifier": "every block", "why_tests_cant": "The input space is unbounded or astronomically large; unit tests sample a handful of values.", "anchors": ["src/chain/block.cpp: is_forward_reference, is_internal_double_spend, check"]}
{"id": "C29", "title": "No value creation", "statement": "An accepted non-coinbase transaction whose true input total fits in 64 bits has true output total at most the true input total; the saturating arithmetic never hides an overspend in that case; fee is exactly the difference.", "quantifier": "every transaction and prevout values", "why_tests_cant": "The input space is unbounded or astronomically large; unit tests sample a handful of values.", "anchors": ["src/chain/transaction.cpp: value, spend, fee, is_overspent, accept"]}
{"id": "C30", "title": "Coinbase claim limited", "statement": "An accepted block's coinbase output total is at most total fees plus subsidy whenever those totals fit in 64 bits.", "quantifier": "every block", "why_tests_cant": "The input space is unbounded or astronomically large; unit tests sample a handful of values.", "anchors": ["src/chain/block.cpp: is_overspent, reward, claim, fees"]}
{"id": "C31", "title": "Subsidy schedule", "statement": "Subsidy is the initial value halved once per interval, is non-increasing in height and zero after 64 halvings under bip42, and the total issued is bounded by 2*interval*initial.", "quantifier": "every height", "why_tests_cant": "The input space is unbounded or astronomically large; unit tests sample a handful of values.", "anchors": ["src/chain/block.cpp: subsidy"]}
{"id": "C32", "title": "Absolute locktime", "statement": "A transaction is absolutely locked exactly when its locktime is nonzero, not below the applicable height/time, and some input is non-final.", "quantifier": "every transaction and context", "why_tests_cant": "The input space is unbounded or astronomically large; unit tests sample a handful of values.", "anchors": ["src/chain/transaction.cpp: is_absolute_locked", "src/chain/input.cpp: is_final"]}
{"id": "C33", "title": "Relative locktime (BIP68)", "statement": "An input is relatively locked exactly when BIP68 says so; no wraparound in the addition makes an immature input appear mature.", "quantifier": "every sequence, heights and times", "why_tests_cant": "The input space is unbounded or astronomically large; unit tests sample a handful of values.", "anchors": ["src/chain/input.cpp: is_relative_locked", "src/chain/transaction.cpp: is_relative_locked"]}
{"id": "C34", "title": "Coinbase maturity", "statement": "A coinbase output at height h (nonzero) is spendable exactly from height h+100; the genesis coinbase never.", "quantifier": "every pair of heights", "why_tests_cant": "The input space is unbounded or astronomically large; unit tests sample a handful of values.", "anchors": ["src/chain/transaction.cpp: is_coinbase_immature"]}
{"id": "C35", "title": "Weight and virtual size", "statement": "weight = 3*base+total and virtual_size = ceil(weight/4) without wrap-around; total size is at least base size.", "quantifier": "every transaction and block", "why_tests_cant": "The input space is unbounded or astronomically large; unit tests sample a handful of values.", "anchors": ["src/chain/transaction.cpp: weight, virtual_size", "src/chain/block.cpp: weight"]}
{"id": "C36", "title": "Signature operation counting", "statement": "Total sigops is the sum over inputs and outputs (legacy, embedded, witness) with legacy cost scaled by 4 under bip141; accurate counting never exceeds inaccurate counting.", "quantifier": "every script", "why_tests_cant": "The input space is unbounded or astronomically large; unit tests sample a handful of values.", "anchors": ["src/chain/script.cpp: signature_operations", "src/chain/input.cpp", "src/chain/output.cpp"]}
{"id": "C37", "title": "Base16 codec", "statement": "decode_base16(encode_base16(x)) = x for all bytes; decoding accepts exactly even-length hex strings (either case); hash text form is the reversed bytes.", "quantifier": "every byte string and text", "why_tests_cant": "The input space is unbounded or astronomically large; unit tests sample a handful of values.", "anchors": ["include/bitcoin/system/impl/radix/base_16.ipp"]}
{"id": "C38", "title": "Base58 codec", "statement": "decode_base58(encode_base58(x)) = x for every byte string and encode(decode(s)) = s for every accepted text; leading zero bytes map to leading '1's.", "quantifier": "every byte string and text", "why_tests_cant": "The input space is unbounded or astronomically large; unit tests sample a handful of values.", "anchors": ["src/radix/base_58.cpp"]}
{"id": "C39", "title": "Base64, base32, base85 codecs", "statement": "Each decode inverts encode for every byte string (with the documented size condition for base85), and accepted texts have unique decodings.", "quantifier": "every byte string", "why_tests_cant": "The input space is unbounded or astronomically large; unit tests sample a handful of values.", "anchors": ["src/radix/base_64.cpp", "src/radix/base_32.cpp", "src/radix/base_85.cpp"]}
{"id": "C40", "title": "Bech32 checksum", "statement": "Any witness address produced verifies; the verify step accepts exactly data whose checksum is the one computed; any corruption affecting up to a proven number of symbols is detected.", "quantifier": "every payload and error pattern", "why_tests_cant": "Number of error patterns is astronomically large.", "anchors": ["src/hash/checksum.cpp", "src/wallet/addresses/witness_address.cpp"]}
{"id": "C41", "title": "Witness address codec", "statement": "Parsing an encoded witness address returns the same prefix, version and program, for every valid program; no string is accepted with invalid checksum, mixed case or invalid program length.", "quantifier": "every address and string", "why_tests_cant": "The input space is unbounded or astronomically large; unit tests sample a handful of values.", "anchors": ["src/wallet/addresses/witness_address.cpp"]}
{"id": "C42", "title": "Golomb coded set codec", "statement": "Decoding the encoded deltas of any sorted set returns the set, for every modulo exponent.", "quantifier": "every sorted set and exponent", "why_tests_cant": "The input space is unbounded or astronomically large; unit tests sample a handful of values.", "anchors": ["src/filter/golomb.cpp: encode, decode, construct"]}
{"id": "C43", "title": "Block filters have no false negatives", "statement": "If an item was used to construct the filter then match_single finds it, and match_stack finds any target list containing it.", "quantifier": "every item list, key, and target list", "why_tests_cant": "The input space is unbounded or astronomically large; unit tests sample a handful of values.", "anchors": ["src/filter/golomb.cpp: match_single, match_stack"]}
{"id": "C44", "title": "Strict DER signatures", "statement": "is_valid_bip66_signature_encoding accepts exactly the DER encodings of two non-negative minimally encoded integers within size limits; never reads out of bounds; each accepted string determines r and s uniquely.", "quantifier": "every byte string", "why_tests_cant": "The input space is unbounded or astronomically large; unit tests sample a handful of values.", "anchors": ["src/crypto/der_parser.cpp"]}
{"id": "C45", "title": "ChaCha20 stream position independence", "statement": "Encrypting a message in one call or split across any sequence of calls gives the same bytes; decryption inverts encryption.", "quantifier": "every message, key and split", "why_tests_cant": "The input space is unbounded or astronomically large; unit tests sample a handful of values.", "anchors": ["src/crypto/chacha20.cpp"]}
{"id": "C46", "title": "Poly1305 correctness", "statement": "The limb implementation computes the Poly1305 polynomial modulo 2^130-5 plus s modulo 2^128; splitting updates arbitrarily does not matter.", "quantifier": "every key, message and split", "why_tests_cant": "The input space is unbounded or astronomically large; unit tests sample a handful of values.", "anchors": ["src/crypto/poly1305.cpp"]}
{"id": "C47", "title": "AEAD round trip", "statement": "Decrypting an encrypted message with the same key, nonce and aad returns it, and any failure leaves no accepted output.", "quantifier": "every message", "why_tests_cant": "The input space is unbounded or astronomically large; unit tests sample a handful of values.", "anchors": ["src/crypto/chacha20_poly1305.cpp"]}
{"id": "C48", "title": "Hash accumulator is independent of chunking", "statement": "Feeding data to the hash accumulator in any sequence of writes then flushing equals hashing the concatenation; padding has the correct length and length field.", "quantifier": "every byte string and split", "why_tests_cant": "The input space is unbounded or astronomically large; unit tests sample a handful of values.", "anchors": ["include/bitcoin/system/impl/hash/accumulator.ipp"]}
{"id": "C49", "title": "Saturating and checked arithmetic", "statement": "ceilinged/floored add/subtract/multiply equal the exact result clamped to the type range; overflow predicates hold exactly when the exact result is out of range; narrowing limits clamp.", "quantifier": "every operand and width", "why_tests_cant": "The input space is unbounded or astronomically large; unit tests sample a handful of values.", "anchors": ["include/bitcoin/system/impl/math/addition.ipp", "include/bitcoin/system/impl/math/overflow.ipp", "include/bitcoin/system/impl/math/limits.ipp", "include/bitcoin/system/impl/math/multiplication.ipp"]}
{"id": "C50", "title": "Division rounding family", "statement": "floored/ceilinged/truncated divide and modulo satisfy the division identity with the rounding direction and remainder sign each promises.", "quantifier": "every dividend and nonzero divisor", "why_tests_cant": "The input space is unbounded or astronomically large; unit tests sample a handful of values.", "anchors": ["include/bitcoin/system/impl/math/division.ipp"]}
{"id": "C51", "title": "Logarithm and power", "statement": "ceilinged_log/floored_log bracket the argument by powers of the base; power matches exponentiation when no overflow.", "quantifier": "every base and value", "why_tests_cant": "The input space is unbounded or astronomically large; unit tests sample a handful of values.", "anchors": ["include/bitcoin/system/impl/math/logarithm.ipp", "include/bitcoin/system/impl/math/power.ipp"]}
{"id": "C52", "title": "Bit operations", "statement": "shifts, rotations, masks, bit get/set and byte swap satisfy their positional specifications; rotations are inverse; byteswap is an involution.", "quantifier": "every width, value and index", "why_tests_cant": "The input space is unbounded or astronomically large; unit tests sample a handful of values.", "anchors": ["include/bitcoin/system/impl/math/bits.ipp", "include/bitcoin/system/impl/math/rotate.ipp", "include/bitcoin/system/impl/math/byteswap.ipp"]}
{"id": "C53", "title": "Coin selection", "statement": "greedy selection returns a sub-multiset of unspent points covering the requested value when the total suffices, and nothing otherwise; if a single coin suffices it returns the smallest such coin.", "quantifier": "every set of unspent points and target", "why_tests_cant": "The input space is unbounded or astronomically large; unit tests sample a handful of values.", "anchors": ["src/wallet/points_value.cpp"]}
{"id": "C54", "title": "Mnemonic codec", "statement": "For every valid entropy length the word indices encode entropy plus checksum and decode returns the entropy; a word list with wrong checksum is rejected.", "quantifier": "every entropy", "why_tests_cant": "The input space is unbounded or astronomically large; unit tests sample a handful of values.", "anchors": ["src/wallet/mnemonics/mnemonic.cpp", "src/radix/base_2048.cpp"]}
{"id": "C55", "title": "Signature hash subscript stripping", "statement": "The subscript used for legacy signature hashing is the script after the last executed code separator with every code separator and every push of the endorsements removed, and nothing else.", "quantifier": "every script and endorsement", "why_tests_cant": "The input space is unbounded or astronomically large; unit tests sample a handful of values.", "anchors": ["include/bitcoin/system/impl/machine/program_verify.ipp: subscript", "include/bitcoin/system/chain/stripper.hpp"]}
{"id": "C56", "title": "Payment address / checked data", "statement": "Checked (checksummed) payload parsing accepts exactly payloads produced by the encoder: prefix, payload, 4-byte checksum; round trip for every payload.", "quantifier": "every payload and string", "why_tests_cant": "The input space is unbounded or astronomically large; unit tests sample a handful of values.", "anchors": ["include/bitcoin/system/wallet/addresses/checked.hpp", "src/wallet/addresses/payment_address.cpp", "include/bitcoin/system/impl/hash/checksum.ipp"]}
{"id": "C57", "title": "Bit reader/writer", "statement": "Bits written are read back in order, n-bit fields round-trip, and flush pads with zero bits to a byte boundary.", "quantifier": "every bit sequence", "why_tests_cant": "The input space is unbounded or astronomically large; unit tests sample a handful of values.", "anchors": ["include/bitcoin/system/impl/stream/streamers/bit_reader.ipp", "include/bitcoin/system/impl/stream/streamers/bit_writer.ipp"]}
{"id": "C58", "title": "Bloom/sieve filter has no false negatives", "statement": "Once a value is added to the filter it continues to screen as present after any sequence of further additions; capacity/saturation semantics hold.", "quantifier": "every sequence of operations", "why_tests_cant": "The input space is unbounded or astronomically large; unit tests sample a handful of values.", "anchors": ["include/bitcoin/system/impl/filter/bloom.ipp", "include/bitcoin/system/impl/filter/sieve.ipp"]}
{"id": "C59", "title": "BIP34 coinbase height commitment", "statement": "The height check of a coinbase script accepts exactly the scripts that begin with a minimal push of the block height; above height 16 this is the reference rule.", "quantifier": "every script and height", "why_tests_cant": "The input space is unbounded or astronomically large; unit tests sample a handful of values.", "anchors": ["src/chain/script.cpp: is_coinbase_pattern", "src/chain/block.cpp: is_invalid_coinbase_script"]}
{"id": "C60", "title": "BIP141 witness commitment", "statement": "A block is rejected for its witness commitment exactly when it has a witness and no commitment, or its last commitment is not the digest of the witness root and the 32 byte reserved value.", "quantifier": "every block", "why_tests_cant": "The input space is unbounded or astronomically large; unit tests sample a handful of values.", "anchors": ["src/chain/block.cpp: is_invalid_witness_commitment, get_witness_commitment", "src/chain/output.cpp: committed_hash"]}
{"id": "C61", "title": "Ledger supply bound", "statement": "Starting from an empty unspent set, after any sequence of blocks accepted at consecutive heights the total value of the unspent outputs never exceeds the sum of the subsidies, so no value is created out of nothing and no intermediate sum saturates.", "quantifier": "every history of accepted blocks", "why_tests_cant": "A statement about unbounded histories.", "anchors": ["src/chain/block.cpp: accept, populate, is_overspent", "src/chain/transaction.cpp: accept, is_overspent"]}
{"id": "C62", "title": "Script verification flow", "statement": "The sequencing of input script, previous output script, embedded script and witness program evaluation gives the same verdict as the reference rules for every script, witness and flags.", "quantifier": "every input, prevout, witness and flag set", "why_tests_cant": "The input space is unbounded or astronomically large; unit tests sample a handful of values.", "anchors": ["include/bitcoin/system/impl/machine/interpreter_connect.ipp: connect, connect_embedded, connect_witness", "src/chain/witness_extract.cpp: extract_script"]}
{"id": "C63", "title": "Script templates", "statement": "A parsed script matches at most one output template, so its output pattern does not depend on the order of the tests; each template builder serializes to the documented bytes, parses back, and matches its own template.", "quantifier": "every script, key list, hash and program", "why_tests_cant": "The input space is unbounded or astronomically large; unit tests sample a handful of values.", "anchors": ["include/bitcoin/system/impl/chain/script_patterns.ipp", "src/chain/script_extract.cpp: output_pattern, input_pattern"]}
{"id": "C64", "title": "SHA functions are those of FIPS 180-4, however they are computed", "statement": "For every message below the counter limit, the library's SHA-1, SHA-256 and SHA-512 (one-shot on any container, on one or more whole blocks, on halves and quarters of a block, on short arrays; normal, message-schedule-vectorised and multi-lane-vectorised alike) equal the functions of FIPS 180-4, the double hashes are the function applied twice, and the in-place vectorised merkle hash and merkle root equal the pairwise tree of double SHA-256 for any list of digests.", "quantifier": "every message, every list of digests, every vector configuration (lane widths and schedule vectorisation), every algorithm of the family", "why_tests_cant": "the message space is unbounded and every vector width has its own code path whose remainder handling depends on the length", "anchors": ["include/bitcoin/system/impl/hash/sha/algorithm_compress.ipp", "include/bitcoin/system/impl/hash/sha/algorithm_merkle.ipp: merkle_hash, merkle_root", "include/bitcoin/system/impl/hash/accumulator.ipp: hash, double_hash"]}
{"id": "C65", "title": "RIPEMD functions are the published ones", "statement": "For every message below the counter limit, the library's RIPEMD-160 and RIPEMD-128 equal the functions of Dobbertin, Bosselaers and Preneel, both in one call (empty, half block, block, whole blocks, other lengths) and through any sequence of accumulator writes followed by a flush, and again after a reset.", "quantifier": "every message and every division of it into writes", "why_tests_cant": "the message space is unbounded and each length class takes its own code path", "anchors": ["include/bitcoin/system/impl/hash/rmd/algorithm.ipp", "include/bitcoin/system/hash/rmd/rmd160.hpp", "include/bitcoin/system/impl/hash/accumulator.ipp: hash, write, flush"]}
{"id": "C66", "title": "HMAC, PBKDF2 and HKDF follow their RFCs", "statement": "For every key, message and division of the message into writes, and every hash algorithm of the library, the HMAC of the library is RFC 2104; for every password, salt, positive iteration count and output size its PBKDF2 is RFC 8018; for every material, salt, info and admitted output size its HKDF terminates with the RFC 5869 output.", "quantifier": "every key, password, salt, message, iteration count, size and algorithm", "why_tests_cant": "The input space is unbounded or astronomically large; unit tests sample a handful of values.", "anchors": ["include/bitcoin/system/impl/hash/hmac.ipp", "include/bitcoin/system/impl/hash/pbkd.ipp: key", "include/bitcoin/system/impl/hash/hkdf.ipp: extract, expand, key"]}
{"id": "C67", "title": "Named hash functions", "statement": "For every input, bitcoin_hash is double SHA-256, bitcoin_short_hash is RIPEMD-160 of SHA-256, the two part forms hash the concatenation, the digest pair form is the double SHA-256 of the pair, tagged_hash is the BIP340 construction, and djb2_hash is the published recurrence on 64 bits.", "quantifier": "every input", "why_tests_cant": "The input space is unbounded or astronomically large; unit tests sample a handful of values.", "anchors": ["include/bitcoin/system/impl/hash/functions.ipp: bitcoin_hash, bitcoin_short_hash, tagged_hash, sha256_hash2, djb2_hash"]}
{"id": "C68", "title": "scrypt follows RFC 7914", "statement": "For every power of two work factor, resources and parallelism, every password, salt and output size, and every order in which the parallel blocks are processed, a successful scrypt call produces the RFC 7914 output, and a call that cannot obtain its memory reports failure.", "quantifier": "every parameter triple, password, salt, size and processing order", "why_tests_cant": "The input space is unbounded or astronomically large; unit tests sample a handful of values.", "anchors": ["include/bitcoin/system/impl/hash/scrypt.ipp: salsa_8, block_mix, romix, index, hash", "include/bitcoin/system/hash/scrypt.hpp: scrypt"]}
{"id": "C69", "title": "Electrum v1 seed words", "statement": "For each Electrum v1 dictionary (english and portuguese): words are produced from entropy exactly when the entropy is 128 or 256 bits, as Electrum's mn_encode; words are accepted in a stated language exactly when there are 12 or 24 of them, all from that dictionary, and the entropy is mn_decode's value of every triple modulo 2^32 with an overflow flag where the value does not fit; entropy -> words -> entropy is the identity and words -> entropy -> words is the identity whenever no triple overflows; the seed text is the concatenation of the values in printf 08x format and the stretched seed is one hundred thousand iterations of SHA-256 of (previous digest, seed text).", "quantifier": "every entropy, sentence and language", "why_tests_cant": "The input space is unbounded or astronomically large; unit tests sample a handful of values.", "anchors": ["src/wallet/mnemonics/electrum_v1.cpp", "src/words/catalogs/electrum_v1.cpp"]}
{"id": "C70", "title": "Signature hashes are the specified ones, whatever was asked before", "statement": "For every transaction, input, script code, amount and hash type the signature hash is that of the original algorithm (including the 'one' result of an unmatched SINGLE), of BIP143, or of BIP341/BIP342 with annex, tapleaf and code separator position, as the active rules and script version select; the lazily filled caches of prevouts, amounts, scripts, sequences and outputs never change an answer in any history of requests on the object, and the hash the script interpreter verifies against is the same one.", "quantifier": "every transaction, previous outputs, input, script code, amount, hash type, rule set and history of requests", "why_tests_cant": "The input space is unbounded or astronomically large; unit tests sample a handful of values.", "anchors": ["src/chain/transaction_sighash.cpp: unversioned_sighash", "src/chain/transaction_sighash_v0.cpp: version0_sighash", "src/chain/transaction_sighash_v1.cpp: version1_sighash", "src/chain/transaction_cache.cpp", "src/chain/transaction.cpp: signature_hash"]}
{"id": "C71", "title": "A block view shows the block the buffer holds and identifies it as the block object does", "statement": "A block_view over a raw buffer is valid exactly when the buffer starts with the serialization of a block (of at least one transaction, each with inputs, outputs, scripts of at most 4,000,000 bytes, and at least one non-empty witness element when witnesses are present). It then exposes, in order, every transaction of that block with its counts, version, locktime, transaction id, witness id (zero for the first transaction), serializations, sizes and table sizes, and the same header hash and commitment; identify() gives the verdict of the block object, and identify(context) its witness commitment verdict when the first transaction alone is a coinbase.", "quantifier": "every byte buffer, every block, trailing bytes and transaction position", "why_tests_cant": "the view and the object codec are two independent parsers; agreement must hold for every buffer", "anchors": ["include/bitcoin/system/chain/views/block_view.hpp: block_view", "src/chain/views/block_view.cpp", "src/chain/views/transaction_view.cpp"]}
{"id": "C72", "title": "HD keys are those of BIP32", "statement": "For every seed, key and child index, hd_private and hd_public derivation are BIP32's master key, CKDpriv and CKDpub: the child key, chain code, depth, parent fingerprint and child number; derivation fails exactly where BIP32's does (invalid I_L or zero key, hardened child of a public key) and at depth 255; every object is invalid or holds a secret and the point of that secret; along any path of non-hardened indexes, deriving privately then neutering equals neutering then deriving publicly; and the text form is Base58Check of BIP32's 78 byte layout and reads back as the same key, while corrupted text is refused.", "quantifier": "all seeds, keys, indexes, derivation paths, prefixes and texts", "why_tests_cant": "The input space is unbounded or astronomically large; unit tests sample a handful of values.", "anchors": ["src/wallet/keys/hd_private.cpp: from_entropy, from_key, from_string, derive_private, derive_public, to_public, to_hd_key, encoded", "src/wallet/keys/hd_public.cpp: from_key, from_string, derive_public, fingerprint", "src/crypto/secp256k1/math.cpp", "src/crypto/secp256k1/keys.cpp"]}
{"id": "C73", "title": "Private key text (WIF), public key bytes and key addresses", "statement": "For every secret, network version and compression flag, the text of a private key is Base58Check of version, secret and compression byte, and reads back as the same key; parsing accepts exactly those texts (with valid secrets) and anything else is the null key; the public key of a secret is its point, its bytes and hex text are the 33 or 65 byte serialization of that point and read back; bytes that are no point are refused; and a key's address is Base58Check of the hash of that serialization.", "quantifier": "all secrets, versions, flags, texts and byte strings", "why_tests_cant": "The input space is unbounded or astronomically large; unit tests sample a handful of values.", "anchors": ["src/wallet/keys/ec_private.cpp: is_wif, from_string, from_compressed, from_uncompressed, from_entropy, encoded, to_public", "src/wallet/keys/ec_public.cpp: from_data, from_string, to_data, encoded", "src/wallet/addresses/payment_address.cpp: from_private, from_public", "src/crypto/secp256k1/keys.cpp"]}
{"id": "C74", "title": "Scalar and point arithmetic is that of the group", "statement": "For all scalars below the group order and all points, negation, addition, subtraction and multiplication of scalars are arithmetic modulo the group order; those of points, and sums of any number of points, are the group's (the identity, which has no serialization, is the null point); conversion from a signed integer preserves its value modulo the order; and the point of a sum or product of secrets is the sum or multiple of their points.", "quantifier": "all scalars, integers, points and lists of points", "why_tests_cant": "The input space is unbounded or astronomically large; unit tests sample a handful of values.", "anchors": ["src/wallet/keys/ec_scalar.cpp", "src/wallet/keys/ec_point.cpp", "src/crypto/secp256k1/math.cpp: ec_add, ec_sum, ec_multiply, ec_negate"]}
{"id": "C75", "title": "AES-256 block encryption is FIPS 197's and is invertible", "statement": "For every 32 byte key and 16 byte block, encryption in place produces the FIPS 197 AES-256 cipher of the block under the key (state, S-box as field inverse and affine map, row shifts, column products in GF(2^8), key expansion); decrypting an encrypted block with the same key restores it, and encrypting a decrypted block restores it.", "quantifier": "all keys and blocks", "why_tests_cant": "The input space is unbounded or astronomically large; unit tests sample a handful of values.", "anchors": ["src/crypto/aes256.cpp: aes256::encrypt_ecb, decrypt_ecb, expand_key, mix_columns, shift_rows, sub_bytes and inverses"]}
{"id": "C76", "title": "Deferring signature checks to a batch changes no verdict", "statement": "Connecting a block's inputs with a signature capture (which takes captured signatures as valid and records them) and then verifying what was captured - in place, or as a batch over tables holding many blocks - accepts exactly the blocks that connect without a capture: a block's identifier is listed by the ECDSA or the Schnorr batch verification exactly when some input of it does not connect inline, and a block that fails with a capture also fails without.", "quantifier": "all blocks of inputs (scripts, witnesses, previous outputs parsed from any bytes), all rule sets, all numbers of blocks with distinct identifiers, all orders of a group's rows, capture enabled or not", "why_tests_cant": "The input space is unbounded or astronomically large; unit tests sample a handful of values.", "anchors": ["include/bitcoin/system/impl/machine/program_batch.ipp: verify_ecdsa_signature, try_batch_multisig_verification, verify_schnorr_signature, is_threshold_batchable", "include/bitcoin/system/chain/batch/signatures.hpp: put, verify, verify_group", "include/bitcoin/system/chain/batch/multisig.hpp", "include/bitcoin/system/chain/batch/threshold.hpp: is_satisfied", "src/crypto/secp256k1/batch.cpp: meets_threshold, get_failures", "src/chain/block.cpp: connect"]}
{"id": "C77", "title": "Text forms of operations, scripts and witnesses", "statement": "Script text is read as its white-space separated words, one operation each. Every complete operation is printed (under any rule flags) as a word that reads back as that operation, so every script without a truncated push reads back from its text as the same operations and the same bytes; distinct scripts have distinct texts. A decimal numeral in the int64 range is an operation pushing the script number of that value; numerals out of range are refused. Operation names are read without regard to case. Every accepted word is a complete operation unless it is an explicit truncated tail or a bare push code. A witness reads back from its text, and exactly the bracketed hexadecimal words are read as witness elements.", "quantifier": "all byte strings up to the block size limit, all texts, all flags, all int64 values, all witness stacks", "why_tests_cant": "The input space is unbounded or astronomically large; unit tests sample a handful of values.", "anchors": ["src/chain/operation.cpp: operation::from_string, operation::to_string", "src/chain/script.cpp: script::from_string, script::to_string", "src/chain/witness.cpp: witness::from_string, witness::to_string", "src/chain/enums/opcode.cpp: opcode_from_mnemonic, opcode_to_mnemonic", "src/data/string.cpp: split, trim, reduce"]}
{"id": "C78", "title": "Decimal amounts", "statement": "Amount text is digits with at most one decimal point; anything else is refused. With d decimal places the text's value times 10^d is returned exactly in strict mode and rounded up to the next integer otherwise; it is refused when (strict) not an integer or when the result does not fit 64 bits. Every 64 bit amount is written canonically (digits before the point, no superfluous zeros, no dangling point) and reads back as the same amount.", "quantifier": "all texts, all numbers of decimal places, all 64 bit amounts", "why_tests_cant": "The input space is unbounded or astronomically large; unit tests sample a handful of values.", "anchors": ["src/radix/base_10.cpp: decode_base10, encode_base10"]}
{"id": "C79", "title": "Borromean ring signatures", "statement": "A ring signature verifies exactly when every ring's links R = s*G + e*P, each giving the next challenge, close on the signature's challenge. A signature made with a secret for one key of each ring (by any salts and any other proofs) verifies, unless a SHA-256 value along a ring is not a scalar between zero and the group order. Verification never reads outside the proofs if each list covers its ring.", "quantifier": "all rings, messages, secrets, salts, proofs and signatures; any prime-order curve group serialization and hash function", "why_tests_cant": "The input space is unbounded or astronomically large; unit tests sample a handful of values.", "anchors": ["src/crypto/ring_signature.cpp: sign, verify, calculate_e0, join_rings, calculate_last_R_signing, calculate_last_R_verify"]}
{"id": "C80", "title": "Bit strings", "statement": "A binary made from text of zeros and ones holds exactly those bits, the first in the high bit of the first byte, zeros after the last, and is written back as the same text; any other text gives no bits. One made from data and a bit count holds the first bits of the data, zero extended. Two are equal exactly when their bits are. An index within it gives its bit, and one outside gives false without reading outside the bytes (refuted).", "quantifier": "every text, data, bit count, pair of bit strings and index", "why_tests_cant": "The input space is unbounded or astronomically large; unit tests sample a handful of values.", "anchors": ["src/stream/binary.cpp: is_base2, from_data, from_string, encoded, operator[], operator==", "include/bitcoin/system/stream/binary.hpp: class binary"]}
{"id": "C81", "title": "Stealth payments", "statement": "The ephemeral key is the first of 255 seeded candidates with an even public key. A stealth script is a null data output carrying the ephemeral key whose hash begins with the filter, and creation fails only when no nonce (but the starting one) gives it. Both sides compute the same shared secret. What a sender pays to a receiver's stealth address, the receiver derives from the script alone, and derives the secret of, namely spend key plus the hash of the shared point.", "quantifier": "every scan, spend and ephemeral secret, seed, filter and address version", "why_tests_cant": "The input space is unbounded or astronomically large; unit tests sample a handful of values.", "anchors": ["src/wallet/keys/stealth.cpp: create_ephemeral_key, create_stealth_script, extract_ephemeral_key, shared_secret, uncover_stealth", "src/wallet/addresses/stealth_sender.cpp: initialize", "src/wallet/addresses/stealth_receiver.cpp: stealth_receiver, derive_address, derive_private"]}
{"id": "C82", "title": "Stealth address encoding", "statement": "Decoding accepts exactly the base58 texts of the documented layout with its checksum and at most 255 spend keys, and yields its meaning (scan key reuse, signature count, filter bits). Encoding a valid address and decoding it gives the same address: proved when the scan key is not a spend key or is only the first; refuted otherwise.", "quantifier": "every byte string, text and combination of filter, keys, signature count and version", "why_tests_cant": "The input space is unbounded or astronomically large; unit tests sample a handful of values.", "anchors": ["src/wallet/addresses/stealth_address.cpp: from_string, from_stealth, to_chunk, reuse_key, encoded"]}
{"id": "C83", "title": "Encrypted keys (BIP38)", "statement": "Encrypting a valid secret with a passphrase always succeeds with a 43 byte key that the same passphrase decrypts to that secret, version and compression; an invalid secret is refused. Decryption (with any passphrase) only ever yields a secret whose address hash is the one in the key and whose checksum holds. A token made from a passphrase and entropy (or salt, lot and sequence) lets anyone who has it make, from any seed, a key and a confirmation code: the passphrase decrypts the key to a secret, the confirmation code to that secret's point, which is the point returned, with the version, compression and lot flag preserved; lot or sequence out of range is refused and creation reports failure when the derived secret is not valid.", "quantifier": "every secret, passphrase, seed, entropy, salt, lot, sequence, version and compression; any scrypt, hash and normalization functions; any group of the curve's order", "why_tests_cant": "Scrypt makes each test take seconds, so the test suite has a few fixed vectors; no test meets an invalid derived secret, and the space of passphrases, seeds and tokens is unbounded.", "anchors": ["src/wallet/keys/encrypted_keys.cpp encrypt, decrypt, create_token, create_key_pair", "src/wallet/keys/parse_encrypted_keys/parse_encrypted_private.cpp, parse_encrypted_public.cpp, parse_encrypted_token.cpp"]}
{"id": "C84", "title": "Electrum seeds are the first acceptable candidate of their entropy, and read back", "statement": "Constructing an electrum object from 17 to 64 bytes of entropy with prefix standard, witness, two_factor or two_factor_witness and one of the dictionaries (two_factor only where the sentence has 12 words or 20 and more) tries the whole 11-bit words of the entropy, and then up to grind_limit times the whole words of SHA-512 of the entropy last tried, cut to the same size. It yields the first candidate whose sentence has the seed version of the prefix (HMAC-SHA512 keyed 'Seed version' begins 01, 100, 101, 102) and is neither an electrum_v1 nor a BIP39 mnemonic; otherwise the object is invalid. The resulting entropy confirms itself without grinding. No sentence has two prefixes. A sentence of 12 to 46 words of one dictionary reads as the entropy it spells, with the prefix it has, and generated sentences read back to the same object; to_prefix agrees with is_prefix. to_seed is PBKDF2-HMAC-SHA512 of the sentence with salt 'electrum' and the passphrase, 2048 rounds.", "quantifier": "all entropies, dictionaries, prefixes, grind limits, word lists and normalization functions", "why_tests_cant": "which candidate is found depends on iterated hashes of arbitrary entropy; agreement must hold for every sentence in every dictionary, and the tests use a few vectors", "anchors": ["src/wallet/mnemonics/electrum.cpp: encoder, decoder, grinder, validator, seeder, from_entropy, from_words, to_prefix, is_prefix", "include/bitcoin/system/wallet/mnemonics/electrum.hpp: electrum"]}
{"id": "C85", "title": "A signed message verifies exactly for the address of the key that signed it", "statement": "verify_message is true exactly when the signature is a magic byte 27 to 34 (recovery identifier 0 to 3, four more for a compressed key) followed by r and s, and (r, s) is an ECDSA signature of the double SHA-256 of the counted prefix 'Bitcoin Signed Message:' and the counted message by the one public key the recovery identifier selects, whose serialization (compressed or not as the magic says) hashes to the hash of the address; the version byte of the address is not looked at. Whatever sign_message produces, from a secret or from WIF text, verifies for the address of the key, and has s in the lower half of the order; an invalid secret does not sign. Different messages are hashed as different bytes. Every verifying signature has a second form with the opposite s.", "quantifier": "all messages, secrets, nonces, addresses and 65-byte signatures, over any curve of the group order", "why_tests_cant": "the ECDSA equation must hold for every secret, message and nonce, including the recovery identifiers that occur with negligible probability (x above the order)", "anchors": ["src/wallet/message.cpp: hash_message, sign_message, verify_message, recovery_id_to_magic, magic_to_recovery_id", "src/crypto/secp256k1/recover.cpp: sign_recoverable, recover_public"]}
{"id": "C86", "title": "Unicode normal forms: NFC, NFD, NFKC and NFKD of any text", "statement": "The four normal forms of a text are always computed (no table is read out of bounds and the recursive decomposition ends), each is equivalent to the text, decomposed forms contain nothing that decomposes further and are in canonical order, two texts have the same form exactly when they are equivalent by decomposition and by exchange of combining characters of different classes, normalizing again changes nothing, Hangul syllables decompose into their letters and are composed back, ASCII text is unchanged, and valid UTF-8 gives valid UTF-8. A text that is not UTF-8 is cleared to the empty string, and the combining classes are those of an older Unicode version than the decompositions.", "quantifier": "every sequence of code points and every byte string, all four forms", "why_tests_cant": "There are unboundedly many sequences of combining characters over 1.1 million code points; the reordering, blocking and recomposition loops, the tries and the binary search only fail on particular combinations that samples miss.", "anchors": ["src/unicode/normalization.cpp: decompose_one, canonical_order, composition_lookup, compose, normal_form", "src/unicode/unicode_tables.cpp", "src/unicode/code_points.cpp: combining_index, unicode_data1, unicode_data2", "src/unicode/conversion.cpp: to_utf"]}
{"id": "C87", "title": "A bitcoin URI is accepted exactly when it is a payment request, and its text gives it back", "statement": "Reading a text as a bitcoin URI gives a valid object exactly when the components a URL parser finds in it are those of a request: the scheme is bitcoin in any letter case, there is no fragment, the address (a payment address or a stealth address) is absent, in the path or in the place of the authority but not in both, the last amount parameter is an exact number of satoshis below 2^64, and no parameter name starts with req-. The object then has that address, that amount (zero without one), and the last label, message and r of the text; every other parameter is ignored. The amount of an object is always defined and in range, each setter changes what it names and nothing else, setting an address succeeds exactly for an address, and encoding any object and reading it again gives the same address, amount, label, message and r. Objects are equal exactly when their texts are.", "quantifier": "every text and every result of the URL parser, every object made by reading and by the setters in any order, and every pair of such objects", "why_tests_cant": "the texts, the parameter lists and the histories of setters are unbounded; tests read some two dozen URIs", "anchors": ["src/wallet/addresses/bitcoin_uri.cpp: bitcoin_uri::set_scheme, bitcoin_uri::set_authority, bitcoin_uri::set_path, bitcoin_uri::set_parameter, bitcoin_uri::set_address, bitcoin_uri::set_amount, bitcoin_uri::amount, bitcoin_uri::label, bitcoin_uri::encoded, bitcoin_uri::operator==", "include/bitcoin/system/wallet/addresses/uri_reader.hpp: uri_reader::parse", "src/wallet/addresses/uri.cpp: uri::decode_query, uri::encode_query"]}
{"id": "C88", "title": "Version numbers read back from their text and compare in one total order", "statement": "The text of a version is two to four decimal numbers joined by points (the third and fourth only when it or the next is not zero), and reads back to the same version. Texts are accepted exactly when they are two to four decimal numbers below 2^32 joined by points, and give those segments with zero for the absent ones. The six comparisons are one total order, decided by the first segment that differs.", "quantifier": "every version and every text", "why_tests_cant": "2^128 versions and unbounded texts; the order must be transitive and consistent with equality for every pair and triple", "anchors": ["src/config/version.cpp: operator>>, operator<<, version::to_string, operator==, operator<, operator<=, operator>, operator>=", "include/bitcoin/system/impl/serial/deserialize.ipp: deserialize", "src/data/string.cpp: split"]}
{"id": "C89", "title": "Checkpoints decide whether a header is in conflict, and read back from their text", "statement": "is_at is true exactly when some checkpoint has the height, is_under exactly when some checkpoint has that height or a greater one, and is_conflict exactly when some checkpoint at the height has another hash. A checkpoint made from hash text is valid exactly for 64 hexadecimal characters, which are its bytes in reverse. hash:height text gives that hash and height when the height is below 2^64, and a valid checkpoint reads back from its text.", "quantifier": "every list of checkpoints in any order and with repeated heights, every hash, height and text", "why_tests_cant": "lists and texts are unbounded and come from configuration", "anchors": ["src/chain/checkpoint.cpp: checkpoint::is_at, checkpoint::is_under, checkpoint::is_conflict, checkpoint::from_string, operator>>, checkpoint::to_string"]}
{"id": "C90", "title": "TIFF images made from pixels say what the pixels are", "statement": "Making an image succeeds exactly when the width is positive and the pixel data is a positive number (below 2^32) of whole rows of (width+7)/8 bytes. The file made is read by a TIFF 6.0 reader as one uncompressed bilevel strip (0 is white) with that width, the number of rows as height, 72 by 72 pixels per inch, with the pixel data unchanged, directory entries sorted by tag and values at even offsets.", "quantifier": "all pixel data of any size and all widths below 2^16", "why_tests_cant": "images are of any size; every field must be where another program looks for it for every width, height and length", "anchors": ["src/wallet/addresses/tiff.cpp: tiff::to_image"]}
{"id": "C91", "title": "Properties written as JSON are JSON texts of the values they were made from", "statement": "Writing properties (null, truth, 64 bit numbers, text, arrays, objects, nested to any depth) succeeds exactly when every number in them is within the accepted interoperable range, and then the text written, flat or indented, is by the JSON grammar a text of exactly those values, with the same nesting, order and names; different values never have the same text.", "quantifier": "all trees of properties of any depth and width, both layouts, all names and texts", "why_tests_cant": "trees are of any depth and size; separators, indentation and quoting must be right at every level", "anchors": ["src/serial/props.cpp: props::write, props::from_number, array_props::add, object_props::add"]}
{"id": "C92", "title": "SipHash is SipHash-2-4 for every key and message", "statement": "The keyed hash that places scripts in block filters is SipHash-2-4 as published, with the message split in little endian 64 bit words and its length modulo 256 in the last byte, for every 128 bit key and every message; the key made from sixteen bytes is their two little endian words.", "quantifier": "all 128 bit keys and all messages of any length", "why_tests_cant": "a wrong rotation, padding or length byte at some length would make filters incompatible; there are 2^128 keys and unbounded messages", "anchors": ["src/hash/siphash.cpp: siphash", "include/bitcoin/system/hash/siphash.hpp: to_siphash_key"]}
{"id": "C93", "title": "Searching, ordering and parting collections", "statement": "Binary search of any list, in order or not, ends without reading outside it and returns -1 or the index of an equal element; in a list in order it returns -1 only for an absent element. Sorted insertion keeps the order and goes after all equal elements. distinct returns the same elements strictly increasing, is_distinct is true exactly for lists without repetition, is_sorted exactly for lists in order. contains, find_position, difference (order and repetitions kept), is_intersecting, part (at the first equal element, moving the rest to the end of the other list) and starts_with do what they say.", "quantifier": "all lists of any length and all elements of any type with a total order", "why_tests_cant": "lists are of any length, with any repetitions, in any order", "anchors": ["include/bitcoin/system/impl/data/collection.ipp: binary_search, insert_sorted, distinct, is_distinct, is_sorted, contains, find_position, difference, is_intersecting, part, starts_with"]}
{"id": "C94", "title": "Network authorities read back from their text, and compare as hosts and subnets", "statement": "An authority made from an address, port and subnet bits never holds an IPv4 address in IPv6 form and reads back from its text, with port and bits when these are not zero, whenever the bits are usable for the kind of address. Comparison does not depend on the order of the two; authorities with the same bits are equal exactly when the addresses are the same and the ports compatible (one is zero or they are the same), a host equals a subnet exactly when the subnet has it, and different subnets sizes are never equal. Authorities with the same text are equal, and equality is transitive.", "quantifier": "all addresses of 32 and 128 bits, all ports and subnet bits, all texts", "why_tests_cant": "2^128 addresses times ports and bits; equality is a relation over all pairs and triples", "anchors": ["src/config/authority.cpp: authority::authority, operator>>, operator<<, operator==", "src/config/utilities.cpp: parse_authority, denormalize, to_literal, is_member"]}
