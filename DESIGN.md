# DESIGN

A formal model of libbitcoin-system (pinned commit in /repo) in Coq 8.16.1, using the Coq standard library only. /repo was read as text; nothing was built or run.

## Layout

* `properties.jsonl` — the properties, in terms of the API.
* `rocq/theories/XModel.v` — the model of an area; each definition cites file and lines of /repo and says where it simplifies.
* `rocq/theories/XSpec.v` — the small separate specification (written from the BIP/RFC/FIPS text or the mathematical meaning, not from the code). Where a specification is a single predicate it is in the `XProps.v` file itself, before the theorem.
* `rocq/theories/XProofs*.v` — lemmas. `rocq/theories/XProps*.v` — the property theorems `Cnn_…`, each followed by `Print Assumptions` and by an `Example` meeting its hypotheses on a concrete case.
* `MANIFEST.json` — property → theorems and status. `seeded/LOG.jsonl` — wrong programs tried against the theorems.

Suffixes: `_partial` — a part of the property, the missing part is named beside it; `_refuted` — a proof, by witness, that the code does *not* satisfy a stronger reading of the property (a defect or a documented surprise, see Findings).

## Conventions

* C++ integers are `Z`; wrap-around is explicit (`wrap`, `mod 2^n`) wherever the type can wrap; signed overflow, out of range access, popping an empty stack, over-wide shifts are explicit outcomes (`None`, `UB`), never default values, so a theorem about the result also says it is reached without undefined behaviour.
* Bytes are `Z` in 0..255 (`bytes_ok`).
* In-place mutation is modelled as sequences of assignments in program order where order can matter (AES, SHA, scrypt, stacks, caches); lazily filled caches and function-local statics are part of the state (C20, C70).
* Vectorised code is modelled lane by lane for every lane count; the compile-time configuration is a parameter of the theorem.
* Environment: hash functions, curve operations, unicode normalization (modelled itself under C86), allocation success, and the node's store are function or record arguments of the theorems. No axiom states anything about them; what is needed is a visible hypothesis (`hashed`, `curve_ok`, …) with an instance exhibited (the library's own SHA/RIPEMD model; a toy group for `curve_ok`).

## Trusted base

* Coq 8.16.1's kernel (and its virtual machine for `vm_compute`; coqchk re-checks those steps without it).
* `Print Assumptions` says "Closed under the global context" for every `Cnn_` theorem: no axiom at all is used, neither ours nor the standard library's. The clean build check also lists seven constants of `Coq.ssr.ssrunder` (`Under_rel`, `Over_rel`, …); they are parameters of a sealed standard library module loaded through `ZifyBool`, and no theorem depends on them.
* No functor, module type, `Declare Module`, plugin, `Admitted`, disabled guard/universe/positivity check.
* The faithfulness of the models to the C++: by reading, with line citations, and supported by published vectors computed inside Coq: SHA and RIPEMD (abc), HMAC (RFC 4231), Salsa20/8 (RFC 7914), Poly1305 (RFC 8439 2.5.2), ChaCha20 (RFC 8439 2.3.2), AEAD (RFC 8439 2.8.2), SipHash reference vector, BIP158 genesis filter, BIP39 zero entropy, Electrum v1 words, FIPS 197 C.3.
* The specifications, to the extent they transcribe BIPs, RFCs and FIPS texts.

## What is not modelled

* libsecp256k1 itself: curve arithmetic, ECDSA/Schnorr verification and recovery are abstract (C72–C74 assume the documented fact that the curve is a cyclic group of prime order with canonical encodings; interpreter theorems hold for every signature oracle).
* SHA-NI/AVX intrinsics (only the portable expansion of the vector code), endian intrinsics, compilers.
* std:: containers' implementation and exceptions; streams over files (`std::istream` positions are modelled on the byte buffer).
* Thread interleavings except where stated (scrypt phases, caches): the remaining objects are used single-threaded or immutable.
* Message signing, stealth, ring signatures, BIP38, URI parsing, JSON, unicode case folding, logging, settings parsing — unless a property below names them.

## Properties

### C01 Variable-length integer codec — proved
* Modelled: include/bitcoin/system/impl/stream/streamers/byte_reader.ipp: read_variable; include/bitcoin/system/impl/stream/streamers/byte_writer.ipp: write_variable; include/bitcoin/system/impl/serial/serialize.ipp / size helpers: variable_size.
* Files: `StreamModel.v`, `StreamSpec.v`; theorems in `StreamProps.v`.
* How: Reader and writer are functions on (bytes, position, valid) streams. Round trip and uniqueness by case analysis on the four width classes with the little-endian value/bytes bijection of `Bytes.v` (induction on the width), for any suffix.
* Scope and gaps: Reader and writer of variable integers over the byte reader model: round trip, canonicality of accepted encodings, prefix freedom, read_size limit.

### C02 Fixed-width endian integer codec — partial
* Modelled: include/bitcoin/system/impl/endian/integers.ipp; include/bitcoin/system/impl/endian/integrals.ipp; include/bitcoin/system/impl/stream/streamers/byte_reader.ipp: read_little_endian, read_big_endian.
* Files: `StreamModel.v`, `StreamSpec.v`; theorems in `StreamProps.v`.
* How: `from/to_{little,big}_endian` modelled as shift-or loops with explicit wrap; equality with positional value by induction on the width.
* Scope and gaps: Proved for every native width, host endianness, and for all integer types wider than a byte at any array size. The explicit-size encoder of one byte integers is refuted (value lands in the most significant byte).

### C03 Byte reader never reads past its limit or the end — proved
* Modelled: include/bitcoin/system/impl/stream/streamers/byte_reader.ipp.
* Files: `StreamModel.v`, `StreamSpec.v`; theorems in `StreamProps.v`.
* How: Every reader operation is a transition on (buffer, position, limit, valid); invariant `0 <= position <= limit <= size` preserved by every operation and therefore, by induction, by every history of operations; invalid reads return zeros and stay invalid.
* Scope and gaps: Refinement of the reader to an array-with-budget specification over every operation sequence, permanence of invalidity, bounds, revival by set_position.

### C04 read_line splits at the terminator — partial
* Modelled: include/bitcoin/system/impl/stream/streamers/byte_reader.ipp: read_line, line_length.
* Files: `StreamModel.v`, `StreamSpec.v`; theorems in `StreamProps.v`.
* How: `read_line`/`line_length` as the peek loop of the code; specification by list splitting at the first terminator; induction on the remaining bytes.
* Scope and gaps: Proved for terminators of 7-bit characters whose first character does not recur; refuted for self-overlapping terminators and for terminators containing bytes above 127.

### C05 Script number codec — proved
* Modelled: include/bitcoin/system/impl/machine/number_chunk.ipp; include/bitcoin/system/impl/machine/number_integer.ipp; include/bitcoin/system/impl/machine/number_boolean.ipp.
* Files: `NumberModel.v`, `NumberSpec.v`; theorems in `NumberProps.v`.
* How: `number::chunk/integer` minimal sign-magnitude codec against the value function of the reference `CScriptNum`; induction on the byte length.
* Scope and gaps: Encode/decode/limit for n in 2..8; one-byte integer types are not instantiated by the code.

### C06 Script truthiness — proved
* Modelled: include/bitcoin/system/impl/machine/number_boolean.ipp; include/bitcoin/system/impl/machine/stack_variant.ipp: peek_bool, peek_strict_bool, peek_minimal_bool.
* Files: `NumberModel.v`, `NumberSpec.v`; theorems in `NumberProps.v`.
* How: Boolean of a chunk against "some byte non-zero except a lone sign bit"; induction on the chunk.
* Scope and gaps: All variant representations; element_bytes is the spec relation.

### C07 Typed stack is observationally a byte-vector stack — proved
* Modelled: include/bitcoin/system/impl/machine/interpreter.ipp; include/bitcoin/system/impl/machine/stack_variant.ipp; include/bitcoin/system/impl/machine/program.ipp.
* Files: `InterpEnv.v`, `InterpModel.v`, `InterpSpec.v`; theorems in `InterpProps.v`.
* How: Two interpreters: the typed variant stack of the code and a stack of byte vectors. A simulation relation (variant ~ its byte serialization) is preserved by every opcode; induction over the op list gives equal results for whole scripts.
* Scope and gaps: Model of every opcode of interpreter/program with the variant stack against a byte-stack reference evaluator (InterpSpec.v); same outcome and stacks for every script, context and start. The reference client's early exit in CHECKMULTISIG under strict DER is a proved divergence (C07_same_verdict_with_strict_encodings_refuted); acceptance implies reference acceptance and the verdicts agree whenever bip66 is off or no multisig occurs.

### C08 Interpreter never pops an empty stack — proved
* Modelled: include/bitcoin/system/impl/machine/interpreter.ipp; include/bitcoin/system/impl/machine/stack.ipp; include/bitcoin/system/impl/machine/program.ipp.
* Files: `InterpEnv.v`, `InterpModel.v`, `InterpSpec.v`; theorems in `InterpProps.v`.
* How: The model of every stack accessor returns an explicit UB outcome where the C++ asserts; the theorem is that no run of any script reaches it (same invariant proof as C07).
* Scope and gaps: Undefined behaviour (pop/peek/erase of missing elements, negative condition count, signed overflow) is an explicit None outcome of the model; proved unreachable.

### C09 Interpreter resource limits — proved
* Modelled: include/bitcoin/system/impl/machine/interpreter_run.ipp: run; include/bitcoin/system/impl/machine/program.ipp: is_stack_overflow, ops_increment.
* Files: `InterpEnv.v`, `InterpModel.v`, `InterpSpec.v`; theorems in `InterpProps.v`.
* How: Invariant over the run: primary+alternate size, op count and push size bounded at each step; violating step returns the specified error.
* Scope and gaps: Limits hold after every prefix of the run that was gone through; the witness shows they bind.

### C10 Conditional execution counter — proved
* Modelled: include/bitcoin/system/impl/machine/program.ipp: begin_if, else_if_, end_if_, is_success.
* Files: `InterpEnv.v`, `InterpModel.v`, `InterpSpec.v`; theorems in `InterpProps.v`.
* How: The single counter representation is related to a stack of booleans (reference `vfExec`); simulation by induction over the ops.
* Scope and gaps: Counter = number of false conditions, skipped operations change nothing but the operation count, success implies balanced conditionals.

### C11 Tapscript signature budget — proved
* Modelled: include/bitcoin/system/impl/machine/program.ipp: sigops_increment; include/bitcoin/system/impl/machine/program_construct.ipp.
* Files: `InterpEnv.v`, `InterpModel.v`, `InterpSpec.v`; theorems in `InterpProps.v`.
* How: Budget = 50 + witness size − 50·(checked signatures); invariant by induction over the ops.
* Scope and gaps: Against the signed BIP342 budget in the reference evaluator, and as a bound on the number of executed signature operations.

### C12 CHECKMULTISIG matches the reference algorithm — proved
* Modelled: include/bitcoin/system/impl/machine/interpreter.ipp: op_check_multisig, op_check_multisig_verify.
* Files: `InterpEnv.v`, `InterpModel.v`, `InterpSpec.v`; theorems in `InterpProps2.v`.
* How: The loop of the code against the greedy reference algorithm (and its declarative meaning: an order preserving matching exists), induction on the key list; the early exit difference is a `_refuted` theorem.
* Scope and gaps: Ordered matching characterisation; the difference with the reference client's early exit is proved as C12_early_exit_refuted.

### C13 CHECKLOCKTIMEVERIFY / CHECKSEQUENCEVERIFY rules — proved
* Modelled: include/bitcoin/system/impl/machine/interpreter.ipp: op_check_locktime_verify, op_check_sequence_verify.
* Files: `InterpEnv.v`, `InterpModel.v`, `InterpSpec.v`; theorems in `InterpProps2.v`.
* How: Opcode functions against BIP65/BIP112 predicates on integers; case analysis.
* Scope and gaps: BIP65/BIP112 predicates on the element bytes; state unchanged.

### C14 Operation and script codec — proved
* Modelled: src/chain/operation.cpp; src/chain/script.cpp.
* Files: `OpModel.v`, `OpSpec.v`; theorems in `OpProps.v`.
* How: Parser/serializer of ops over byte lists; round trip by induction on the op list, exact inverse on all byte strings (including the underflow op).
* Scope and gaps: Any byte string parses, round-trips, agrees with the reference scan; prefixed codec both directions; truncated prefix fails.

### C15 Minimal/nominal push encodings — partial
* Modelled: src/chain/operation.cpp: is_minimal_push, opcode_from_data; include/bitcoin/system/impl/chain/operation_patterns.ipp.
* Files: `OpModel.v`, `OpSpec.v`; theorems in `OpProps.v`.
* How: `opcode_from_data`, minimal and nominal pushes against the reference `CheckMinimalPush`; case analysis on the size classes.
* Scope and gaps: Proved for all data except the single byte 0x00, for which the minimal push is refuted (becomes OP_0).

### C16 Transaction codec — proved
* Modelled: src/chain/transaction.cpp: from_data, to_data; src/chain/input.cpp; src/chain/output.cpp; src/chain/witness.cpp; src/chain/point.cpp.
* Files: `ChainModel.v`, `ChainSpec.v`; theorems in `ChainProps.v`.
* How: Reader based parser over the stream model of C03, serializer over lists; round trip, uniqueness and allocation bound by induction on the element counts.
* Scope and gaps: Round trip both forms, accepted bytes canonical, sizes, txid from wire buffer; two boundary facts recorded as _refuted (empty-element witness rejected by witness=false read; no-input one-output ambiguity) and the completeness of the witness=false read as _partial.

### C17 Header and block codec — proved
* Modelled: src/chain/header.cpp; src/chain/block.cpp: from_data, to_data.
* Files: `ChainModel.v`, `ChainSpec.v`; theorems in `ChainProps.v`.
* How: As C16, for header and block.
* Scope and gaps: Header/block codec, sizes, cached identity hashes.

### C18 Compact difficulty codec — partial
* Modelled: include/bitcoin/system/impl/chain/compact.ipp; include/bitcoin/system/impl/math/ or radix base256e.
* Files: `CompactModel.v`, `CompactSpec.v`; theorems in `CompactProps.v`.
* How: Positional arithmetic on 256-bit values: expand/compress against the reference `SetCompact`/`GetCompact` on integers.
* Scope and gaps: Decoder proved equal to the Satoshi rule for all 2^32 inputs; encoder, truncation and monotonicity proved for every number that is not an exact power of 256, and refuted for those (they encode to an invalid target).

### C19 Block proof value — proved
* Modelled: src/chain/header.cpp: proof.
* Files: `CompactModel.v`, `CompactSpec.v`; theorems in `CompactProps.v`.
* How: `proof` against floor(2^256/(target+1)); integer arithmetic with 256-bit wrap.
* Scope and gaps: For every 32-bit bits value.

### C20 Proof of work acceptance — partial
* Modelled: src/chain/header.cpp: is_invalid_proof_of_work.
* Files: `CompactModel.v`, `CompactSpec.v`; theorems in `CompactProps.v`.
* How: Decision against "0 < target <= limit and hash <= target"; the function-local static is an explicit state.
* Scope and gaps: Every sequence of calls with one set of limits; refuted for a second, different limit (function-local static).

### C21 Median time past — proved
* Modelled: src/chain/chain_state.cpp: median_time_past.
* Files: `StateModel.v`, `StateSpec.v`; theorems in `StateProps.v`.
* How: Sort of the last eleven timestamps against "the element with as many below as above"; sorting permutation argument; whole-chain induction for promotion.
* Scope and gaps: median = element n/2 of the sorted window, permutation invariant, half bounds; along rolled chains; header::accept characterised exactly

### C22 Retarget bounds — partial
* Modelled: src/chain/chain_state.cpp: work_required_retarget, retarget_timespan.
* Files: `StateModel.v`, `StateSpec.v`; theorems in `StateProps.v`.
* How: Clamped timespan and target formula as integer arithmetic with explicit 256-bit wrap, on any chain of headers.
* Scope and gaps: within limit unconditionally; clamped timespan; exact retarget incl. testnet/BIP94/Litecoin overflow patch except powers of 256 (refuted) and the function-local static limit (refuted)

### C23 Chain state promotion agrees with construction from history — partial
* Modelled: src/chain/chain_state.cpp: to_pool, to_header, get_map.
* Files: `StateModel.v`, `StateSpec.v`; theorems in `StateProps.v`.
* How: `to_header`/`to_block` promotion against recomputation from history: simulation invariant over the chain (window lists), induction on the number of promoted headers.
* Scope and gaps: all values, retarget time, work and context equal; refuted at retarget heights with the block storm patch and with the ltc time warp patch

### C24 Rule activation at checkpoints persists — partial
* Modelled: src/chain/chain_state.cpp: to_block, to_header, activation.
* Files: `StateModel.v`, `StateSpec.v`; theorems in `StateProps2.v`.
* How: As C23, over the checkpoint-dependent activations.
* Scope and gaps: persistence and exactness on the header path; block path agrees away from checkpoint heights, refuted at them; genesis checkpoint and unconfigured-group discrepancies refuted

### C25 BIP34 majority activation and enforcement — proved
* Modelled: src/chain/chain_state.cpp: activation; include/bitcoin/system/chain/context.hpp.
* Files: `StateModel.v`, `StateSpec.v`; theorems in `StateProps2.v`.
* How: Counting of versions in the window; induction on the history.
* Scope and gaps: activation iff, bip90 freezing, minimum version; own version compared unsigned (refuted companion)

### C26 Merkle root malleation detection — proved
* Modelled: src/chain/block.cpp: is_malleated32, is_malleable32, malleated32_size; include/bitcoin/system/impl/hash/sha/algorithm_merkle.ipp.
* Files: `BlockModel.v`, `BlockSpec.v`; theorems in `BlockProps.v`.
* How: Merkle fold by levels; a root determines leaves up to collision or duplication: induction on levels. Collisions are exhibited (constructive disjunction), never assumed absent.
* Scope and gaps: The transaction root determines the leaves up to a collision or the CVE-2012-2459 duplication; malleated64/32 flags characterised; check accepts only unmalleated blocks. C26_two_level_copy_refuted records F23: identify/is_malleated32 miss the copy [cb;a;b;c;x;x;x] of [cb;a;b;c;x].

### C27 Merkle branch proves membership — proved
* Modelled: src/chain/block.cpp: merkle_branch.
* Files: `BlockModel.v`, `BlockSpec.v`; theorems in `BlockProps.v`.
* How: Branch building and climbing by induction on levels.
* Scope and gaps: Every branch produced climbs to the root for its leaf, has the tree depth, and a branch that climbs to the root names the leaf up to a collision.

### C28 Block ordering and double spend checks — proved
* Modelled: src/chain/block.cpp: is_forward_reference, is_internal_double_spend, check.
* Files: `BlockModel.v`, `BlockSpec.v`; theorems in `BlockProps.v`.
* How: Hash-set based checks against quantified statements about positions, induction on the transactions.
* Scope and gaps: Forward references and internal double spends are found exactly; an accepted block has distinct spent points and spends only earlier transactions of the block.

### C29 No value creation — proved
* Modelled: src/chain/transaction.cpp: value, spend, fee, is_overspent, accept.
* Files: `ValidModel.v`, `ValidSpec.v`; theorems in `ValidProps.v`.
* How: Saturating sums equal exact sums below 2^64−1; then comparison.
* Scope and gaps: accept succeeds exactly when every previous output is present and the exact integer sums satisfy out <= in, for sums below 2^64-1; C29_saturation_refuted shows the saturating sums admit a violation only at/above 2^64-1, which C61 shows no ledger reaches.

### C30 Coinbase claim limited — proved
* Modelled: src/chain/block.cpp: is_overspent, reward, claim, fees.
* Files: `ValidModel.v`, `ValidSpec.v`; theorems in `ValidProps.v`.
* How: As C29 for the coinbase.
* Scope and gaps: Exact claim limit (outputs of coinbase <= subsidy + sum of fees, sums below 2^64) and the verdict order of block accept.

### C31 Subsidy schedule — proved
* Modelled: src/chain/block.cpp: subsidy.
* Files: `ValidModel.v`, `ValidSpec.v`; theorems in `ValidProps.v`.
* How: Shift based schedule against division by powers of two; sum bounded by induction on the number of heights.
* Scope and gaps: Halving closed form for every height/interval/initial value, with and without bip42; total issue bounded for every number of heights; 21 million bound on main network figures.

### C32 Absolute locktime — proved
* Modelled: src/chain/transaction.cpp: is_absolute_locked; src/chain/input.cpp: is_final.
* Files: `ValidModel.v`, `ValidSpec.v`; theorems in `ValidProps.v`.
* How: Decision procedure against BIP113/finality predicate.
* Scope and gaps: Locktime check of transaction::check(ctx) equals finality at the context's height and time (median time past under bip113).

### C33 Relative locktime (BIP68) — proved
* Modelled: src/chain/input.cpp: is_relative_locked; src/chain/transaction.cpp: is_relative_locked.
* Files: `ValidModel.v`, `ValidSpec.v`; theorems in `ValidProps.v`.
* How: Decision procedure against BIP68 predicate, sums in 64-bit/32-bit as in the code.
* Scope and gaps: BIP68 lock exactly as specified, for confirmed previous outputs (hypothesis: prevout height/mtp not above the spender's) and for spends within one block.

### C34 Coinbase maturity — proved
* Modelled: src/chain/transaction.cpp: is_coinbase_immature.
* Files: `ValidModel.v`, `ValidSpec.v`; theorems in `ValidProps.v`.
* How: Decision procedure against the quantified predicate over inputs.
* Scope and gaps: confirm succeeds iff coinbase, or unlocked and every spent output is confirmed, unspent below and 100 deep when from a coinbase; own coinbase outputs cannot be spent. The metadata is supplied by the caller (node store).

### C35 Weight and virtual size — proved
* Modelled: src/chain/transaction.cpp: weight, virtual_size; src/chain/block.cpp: weight.
* Files: `ChainModel.v`, `ChainSpec.v`; theorems in `ChainProps.v`.
* How: Sizes are lengths of the modelled serializations (C16/C17); arithmetic.
* Scope and gaps: Transaction and block weight, virtual size, overweight test.

### C36 Signature operation counting — proved
* Modelled: src/chain/script.cpp: signature_operations; src/chain/input.cpp; src/chain/output.cpp.
* Files: `SigopSpec.v`; theorems in `SigopProps.v`.
* How: Op-level counting equals byte-level counting by induction over parsed scripts (C14).
* Scope and gaps: Transaction counts equal the reference cost on script bytes (no saturation possible), block limit is on the exact sum; precondition bip141 implies bip16 (true of every activation).

### C37 Base16 codec — proved
* Modelled: include/bitcoin/system/impl/radix/base_16.ipp.
* Files: `RadixModel.v`, `RadixSpec.v`; theorems in `RadixProps.v`.
* How: Digit level; induction on the text/bytes.
* Scope and gaps: Complete for base_16.ipp (chunk, array and hash forms).

### C38 Base58 codec — proved
* Modelled: src/radix/base_58.cpp.
* Files: `RadixModel.v`, `RadixSpec.v`; theorems in `RadixProps.v`.
* How: Base conversion loops against positional values in base 58 and 256; induction on both loops; buffer size sufficient (log 256/log 58 < 138/100).
* Scope and gaps: Complete for base_58.cpp.

### C39 Base64, base32, base85 codecs — partial
* Modelled: src/radix/base_64.cpp; src/radix/base_32.cpp; src/radix/base_85.cpp.
* Files: `RadixModel.v`, `RadixSpec.v`; theorems in `RadixProps.v`.
* How: Digit grouping loops against bit strings; induction by groups.
* Scope and gaps: Round trips and encodings proved. Decoders: refuted that accepted texts are canonical (base64, base85, base32), that base85 stays within its alphabet, and that base32 decoding stays within its 128-element table for characters above 127.

### C40 Bech32 checksum — proved
* Modelled: src/hash/checksum.cpp; src/wallet/addresses/witness_address.cpp.
* Files: `AddressModel.v`, `AddressSpec.v`; theorems in `AddressProps.v`.
* How: Checksum as a polynomial over GF(32) modulo the generator; linearity plus kernel-checked finite determinant tables, lifted to every word by linear algebra.
* Scope and gaps: verify accepts exactly the words congruent, over the 32 element field and modulo the BIP173 generator, to the BIP173/BIP350 constant (polynomial spec in AddressSpec.v, field tables proved equal to carry-less multiplication); built words verify and yield version and program; last six symbols are determined; every 1-4 symbol substitution is detected up to 89 symbols (version not switching zero/non-zero), every 1-3 symbol substitution including the version up to 71 symbols, also at the text level. The finite determinant tables are checked by the kernel; the lifting to all words, prefixes and error patterns is by linear algebra.

### C41 Witness address codec — partial
* Modelled: src/wallet/addresses/witness_address.cpp.
* Files: `AddressModel.v`, `AddressSpec.v`; theorems in `AddressProps.v`.
* How: Composition of C40 with the 5/8 bit regrouping, exact characterisation of accepted texts.
* Scope and gaps: Exact characterisation of accepted texts (iff, C41_accepts), encode/parse round trip in either case whenever the text fits 90 characters, construction rules. Refuted as stated: a superfluous zero symbol is accepted (5-7 unused bits, F28: C41_padding_refuted), and an address constructed with a long prefix encodes to an unparseable text (F29: C41_long_prefix_refuted).

### C42 Golomb coded set codec — proved
* Modelled: src/filter/golomb.cpp: encode, decode, construct.
* Files: `GolombModel.v`, `GolombSpec.v`; theorems in `GolombProps.v`.
* How: Writer/reader on the bit-stream model (C57); unary + remainder by induction on the quotient, list by induction.
* Scope and gaps: Round trip of the coded set for every sorted list of uint64 and every exponent (0..255), BIP158 bit layout, and what set is encoded (SipHash modelled concretely, checked on its reference vector).

### C43 Block filters have no false negatives — partial
* Modelled: src/filter/golomb.cpp: match_single, match_stack.
* Files: `GolombModel.v`, `GolombSpec.v`; theorems in `GolombProps.v`, `HeaderProps.v`.
* How: Reduction and matching against set membership; induction on the merged lists.
* Scope and gaps: match_single: exact up to range collisions, no false negatives; block filter compute/match end to end (BIP158 genesis vector reproduced). match_stack: sound, finds the least hashed target; C43_stack_refuted / C43_scripts_refuted: FALSE NEGATIVES for several targets (iterator lag) - code defect, so the full claim is false of the code.

### C44 Strict DER signatures — proved
* Modelled: src/crypto/der_parser.cpp.
* Files: `DerModel.v`, `DerSpec.v`; theorems in `DerProps.v`.
* How: Parsers against an inductive DER grammar; case analysis on lengths.
* Scope and gaps: is_valid_bip66 accepts exactly the strings of at most 72 bytes that are strict DER SEQUENCE{INTEGER r, INTEGER s} encodings of non-negative integers (spec der_signature); encoding is unique; parse_der_lax never over-reads, accepts exactly the lax grammar lax_signature and returns r,s reduced (overflow -> zero); strict decode is a restriction of lax decode.

### C45 ChaCha20 stream position independence — proved
* Modelled: src/crypto/chacha20.cpp.
* Files: `ChachaModel.v`, `ChachaSpec.v`; theorems in `ChachaProps.v`.
* How: Word-level model of quarter rounds; vector lanes proved equal to scalar by lane induction; stream positions by induction on the calls.
* Scope and gaps: chacha20: scalar and vector (4, 8, 16 lanes) paths, set_key, seek, crypt, stream, against RFC 8439; the 32-bit counter wraps as in the code. Overlapping but unequal in/out spans are not modelled.

### C46 Poly1305 correctness — proved
* Modelled: src/crypto/poly1305.cpp.
* Files: `PolyModel.v`, `PolySpec.v`; theorems in `PolyProps.v`.
* How: Limb arithmetic against integers modulo 2^130−5 with carry bounds; lanes combine by powers of r; induction on blocks and writes.
* Scope and gaps: The five 26-bit limb implementation, scalar and 2/4/8 lane vector paths and the buffering, equals RFC 8439 Poly1305 for every key and every division into writes.

### C47 AEAD round trip — proved
* Modelled: src/crypto/chacha20_poly1305.cpp.
* Files: `AeadModel.v`, `AeadSpec.v`; theorems in `AeadProps.v`.
* How: Composition of C45 and C46; message histories by induction.
* Scope and gaps: chacha20_poly1305 encrypt/decrypt/stream against RFC 8439; fschacha20 and fschacha20_poly1305 against BIP 324 for every message history with interval > 0 (interval 0 rekeys after 2^32 messages in the code). The forgery resistance of the tag itself is a cryptographic assumption, not a claim: decrypt is shown to accept exactly the encryptions.

### C48 Hash accumulator is independent of chunking — proved
* Modelled: include/bitcoin/system/impl/hash/accumulator.ipp.
* Files: `ShaModel.v`, `ShaSpec.v`; theorems in `ShaProps.v`.
* How: Accumulator state invariant (buffer = tail of the message, state = compression of the prefix); induction on the writes.
* Scope and gaps: Any division of a message into writes, flush, double flush, use after a flush, reset and the midstate constructor, for SHA-1/256/512 with or without vectorisation and checked or not; C48_limit_refuted: the whole-block fast path of write skips the overflow test of a checked accumulator (F33).

### C49 Saturating and checked arithmetic — proved
* Modelled: include/bitcoin/system/impl/math/addition.ipp; include/bitcoin/system/impl/math/overflow.ipp; include/bitcoin/system/impl/math/limits.ipp; include/bitcoin/system/impl/math/multiplication.ipp.
* Files: `MathModel.v`, `MathSpec.v`; theorems in `MathProps.v`.
* How: Typed integers with explicit promotion, wrap and UB; arithmetic for all widths.
* Scope and gaps: All operand values and widths; promotion, wrap and UB explicit. Mixed-type add/subtract overloads (place2/Explicit) are not modelled separately: they cast to one type first.

### C50 Division rounding family — partial
* Modelled: include/bitcoin/system/impl/math/division.ipp.
* Files: `MathModel.v`, `MathSpec.v`; theorems in `MathProps.v`.
* How: As C49 for division and modulo.
* Scope and gaps: Same-type operands. Full claim proved for floored/truncated/ceilinged divide and for ceilinged_modulo except unsigned divisors above half range, where it is refuted (C50_ceilinged_modulo_large_divisor_refuted).

### C51 Logarithm and power — partial
* Modelled: include/bitcoin/system/impl/math/logarithm.ipp; include/bitcoin/system/impl/math/power.ipp.
* Files: `MathModel.v`, `MathSpec.v`; theorems in `MathProps.v`.
* How: As C49 for logarithms and powers.
* Scope and gaps: Holds for base 2/256 (all overloads) and floored_log any base and power; general-base ceilinged_log is refuted (returns 1 for log_10 11).

### C52 Bit operations — proved
* Modelled: include/bitcoin/system/impl/math/bits.ipp; include/bitcoin/system/impl/math/rotate.ipp; include/bitcoin/system/impl/math/byteswap.ipp.
* Files: `MathModel.v`, `MathSpec.v`; theorems in `MathProps.v`.
* How: As C49 for bits, bytes and casts.
* Scope and gaps: Positional specs for all widths; byte swaps for 16/32/64.

### C53 Coin selection — proved
* Modelled: src/wallet/points_value.cpp.
* Files: `CoinModel.v`; theorems in `CoinProps.v`.
* How: Relational model of selection (any ordering of equal coins); exchange argument.
* Scope and gaps: select as a relation (std::partition/std::sort leave the order of equal elements open), amounts 64-bit. C53_fewest additionally proves that no selection with fewer coins suffices; C53_exists shows the relation is total. Aliasing of the output with the input (out.points.clear() first) is not modelled.

### C54 Mnemonic codec — proved
* Modelled: src/wallet/mnemonics/mnemonic.cpp; src/radix/base_2048.cpp.
* Files: `MnemonicModel.v`, `MnemonicSpec.v`; theorems in `MnemonicProps.v`.
* How: Bit regrouping of entropy‖checksum into 11-bit indexes; dictionaries checked by computation; induction on words.
* Scope and gaps: Over the ten word lists of the library, copied word for word and checked by computation (2048 distinct words each, sorted when flagged). Unicode normalization (try_normalize, NFKD) is a parameter: C54_round_trip and C54_detect assume it leaves dictionary words unchanged.

### C55 Signature hash subscript stripping — proved
* Modelled: include/bitcoin/system/impl/machine/program_verify.ipp: subscript; include/bitcoin/system/chain/stripper.hpp.
* Files: `InterpEnv.v`, `InterpModel.v`, `InterpSpec.v`; theorems in `InterpProps2.v`.
* How: Op-level filter equals byte-level `FindAndDelete`; induction on ops.
* Scope and gaps: Op-level stripping equals byte-level FindAndDelete plus separator removal.

### C56 Payment address / checked data — proved
* Modelled: include/bitcoin/system/wallet/addresses/checked.hpp; src/wallet/addresses/payment_address.cpp; include/bitcoin/system/impl/hash/checksum.ipp.
* Files: `AddressModel.v`, `AddressSpec.v`, `PatternModel.v`; theorems in `AddressProps.v`, `PatternProps.v`.
* How: Checked payload over any 32 byte hash; composition with C38 and C63.
* Scope and gaps: For any 32 byte hash function: checksum verification accepts exactly x ++ first four hash bytes; the payment address parser accepts exactly the base58 text of prefix ++ 20 byte key hash ++ checksum and round trips; the output script of an address has exactly that address and only such scripts yield addresses. Refuted: extract_input takes the signature instead of the key (C56_extract_input_refuted); extract of a witness output yields a script hash address (C56_extract_refuted).

### C57 Bit reader/writer — partial
* Modelled: include/bitcoin/system/impl/stream/streamers/bit_reader.ipp; include/bitcoin/system/impl/stream/streamers/bit_writer.ipp.
* Files: `BitStreamModel.v`, `BitStreamSpec.v`; theorems in `BitStreamProps.v`.
* How: Bit positions as naturals; reader/writer simulation over any history.
* Scope and gaps: Reader histories, unaligned and aligned bytes, writer packing, round trip: proved. Peek after rewinding to a byte boundary, and rewind before any read, are refuted with witnesses; the reader history theorem says nothing for the latter.

### C58 Bloom/sieve filter has no false negatives — proved
* Modelled: include/bitcoin/system/impl/filter/bloom.ipp; include/bitcoin/system/impl/filter/sieve.ipp.
* Files: `FilterModel.v`; theorems in `FilterProps.v`.
* How: Bit-set semantics of filters; reachable states by induction on insertions.
* Scope and gaps: bloom<M,K> for all 1<=K<=M<=64; sieve<N,S> for all S>=1, N-S>=2, N<=64 with 2S <= width of the sieve's integer type (beyond that the compile-time offset table saturates and the table is not modelled as correct). Includes generation of the mask table. bloom/sieve values restricted to those reachable from the empty filter.

### C59 BIP34 coinbase height commitment — partial
* Modelled: src/chain/script.cpp: is_coinbase_pattern; src/chain/block.cpp: is_invalid_coinbase_script.
* Files: `BlockModel.v`, `BlockSpec.v`; theorems in `BlockProps2.v`.
* How: Script-prefix comparison against the serialized height of C05.
* Scope and gaps: Exact characterisation proved for all heights below 2^63; agreement with the reference rule holds above 16 only, C59_small_heights_refuted is F24.

### C60 BIP141 witness commitment — proved
* Modelled: src/chain/block.cpp: is_invalid_witness_commitment, get_witness_commitment; src/chain/output.cpp: committed_hash.
* Files: `BlockModel.v`, `BlockSpec.v`; theorems in `BlockProps2.v`.
* How: Scan for the last commitment output against BIP141; hash a parameter.
* Scope and gaps: Both directions, for every block of serialisable transactions; hash function is a parameter.

### C61 Ledger supply bound — proved
* Modelled: src/chain/block.cpp: accept, populate, is_overspent; src/chain/transaction.cpp: accept, is_overspent.
* Files: `ValidModel.v`, `ValidSpec.v`; theorems in `ValidProps.v`.
* How: Ledger of unspent outputs as a finite map; invariant total <= issued, induction over the accepted blocks.
* Scope and gaps: Every history of blocks passing check, populate and accept keeps the unspent outputs within the issued subsidies; cap for every history under bip42. Hypotheses: the node's store provides the ledger's outputs, hash acyclicity; script validity (connect) not needed for supply.

### C62 Script verification flow — partial
* Modelled: include/bitcoin/system/impl/machine/interpreter_connect.ipp: connect, connect_embedded, connect_witness; src/chain/witness_extract.cpp: extract_script.
* Files: `ConnectModel.v`, `ConnectSpec.v`; theorems in `ConnectProps2.v`.
* How: The connect flow against an independent `VerifyScript` specification (ConnectSpec), using the interpreter of C07 on both sides.
* Scope and gaps: connect is proven equal to VerifyScript for every script, witness and flag set with segwit active or no witness (C62_connect_partial); against the reference's CHECKMULTISIG early exit it accepts only what the reference accepts (C62_accepts_only) and agrees when bip66 is off or no CHECKMULTISIG is evaluated (C62_same_verdict_partial; the gap is C12_early_exit_refuted). Refuted: a witness present while segwit is inactive is refused instead of ignored (C62_inactive_witness_refuted). Signature batching: see C76.

### C63 Script templates — proved
* Modelled: include/bitcoin/system/impl/chain/script_patterns.ipp; src/chain/script_extract.cpp: output_pattern, input_pattern.
* Files: `PatternModel.v`; theorems in `PatternProps.v`, `PatternProps2.v`.
* How: Pattern predicates against byte templates; case analysis.
* Scope and gaps: Output templates are pairwise exclusive on parsed scripts and the builders produce them (bytes, re-parse, pattern). Refuted sub-claims proved as theorems: to_pay_null_data_pattern of one byte 0..16 or 0x81 does not match its own template (C63_null_data_refuted); the comment that output patterns are input-unambiguous is false (C63_input_refuted).

### C64 SHA functions are those of FIPS 180-4, however they are computed — proved
* Modelled: include/bitcoin/system/impl/hash/sha/algorithm_compress.ipp; include/bitcoin/system/impl/hash/sha/algorithm_merkle.ipp: merkle_hash, merkle_root; include/bitcoin/system/impl/hash/accumulator.ipp: hash, double_hash.
* Files: `ShaModel.v`, `ShaSpec.v`; theorems in `ShaProps.v`.
* How: Word-level model of every vector configuration against FIPS 180-4 text; lanes by induction, padding by length arithmetic.
* Scope and gaps: Every one-shot, two-part, short and double form and the in-place merkle hash/root, for every vector configuration, against an independent FIPS 180-4 specification; native (SHA-NI) instructions are not modelled.

### C65 RIPEMD functions are the published ones — proved
* Modelled: include/bitcoin/system/impl/hash/rmd/algorithm.ipp; include/bitcoin/system/hash/rmd/rmd160.hpp; include/bitcoin/system/impl/hash/accumulator.ipp: hash, write, flush.
* Files: `RmdModel.v`, `RmdSpec.v`; theorems in `RmdProps.v`.
* How: As C64 for RIPEMD.
* Scope and gaps: One-shot forms, any division into writes, and reset, against an independent RIPEMD specification; abc vectors computed.

### C66 HMAC, PBKDF2 and HKDF follow their RFCs — partial
* Modelled: include/bitcoin/system/impl/hash/hmac.ipp; include/bitcoin/system/impl/hash/pbkd.ipp: key; include/bitcoin/system/impl/hash/hkdf.ipp: extract, expand, key.
* Files: `KdfModel.v`, `KdfSpec.v`; theorems in `KdfProps.v`.
* How: Over an abstract hashed-algorithm record instantiated with C64/C65; induction on iterations and blocks.
* Scope and gaps: HMAC (any writes) and PBKDF2 proved for all five algorithms; HKDF proved up to 254 blocks. C66_hkdf_maximum_refuted: for 254*hlen < size <= 255*hlen, which the template admits, the uint8_t loop counter wraps and the loop never ends (F34).

### C67 Named hash functions — proved
* Modelled: include/bitcoin/system/impl/hash/functions.ipp: bitcoin_hash, bitcoin_short_hash, tagged_hash, sha256_hash2, djb2_hash.
* Files: `KdfModel.v`, `KdfSpec.v`; theorems in `KdfProps.v`.
* How: Corollaries of C64–C66 for the named functions.
* Scope and gaps: All forms, for every vector configuration; scrypt_hash and merkle_root are in C68 and C64.

### C68 scrypt follows RFC 7914 — partial
* Modelled: include/bitcoin/system/impl/hash/scrypt.ipp: salsa_8, block_mix, romix, index, hash; include/bitcoin/system/hash/scrypt.hpp: scrypt.
* Files: `ScryptModel.v`, `ScryptSpec.v`; theorems in `ScryptProps.v`.
* How: In-place ROMix with endian-dependent word views against RFC 7914; induction on N; thread order as an arbitrary permutation.
* Scope and gaps: C68_scrypt: RFC 7914 output for all 2^k, r, p, sizes and visiting orders when the working sets are allocated. The failure half is false of the code: C68_out_of_memory_refuted shows a call whose working sets cannot be allocated still returns success with an output that has had no memory-hard mixing. Assumes the P*128*r bytes, password and salt below 2^61-2^41 bytes.

### C69 Electrum v1 seed words — proved
* Modelled: src/wallet/mnemonics/electrum_v1.cpp; src/words/catalogs/electrum_v1.cpp.
* Files: `ElectrumModel.v`; theorems in `ElectrumProps.v`.
* How: 1626-base arithmetic of word triples; stretching by induction on rounds.
* Scope and gaps: English and portuguese dictionaries, SHA-256 proved equal to FIPS 180-4. F36 (C69_detect_refuted): when the language is not given, a portuguese sentence made of words shared with the english dictionary is silently read as english, giving another entropy. The unicode normalization of the sentence is a parameter. Stretching is proved for seed texts under 2^59 bytes (the library's are at most 72).

### C70 Signature hashes are the specified ones, whatever was asked before — partial
* Modelled: src/chain/transaction_sighash.cpp: unversioned_sighash; src/chain/transaction_sighash_v0.cpp: version0_sighash; src/chain/transaction_sighash_v1.cpp: version1_sighash; src/chain/transaction_cache.cpp; src/chain/transaction.cpp: signature_hash.
* Files: `SighashModel.v`, `SighashSpec.v`; theorems in `SighashProps.v`, `SighashProps2.v`.
* How: Cache state is part of the model; invariant "cache empty or right"; the three algorithms against the BIP texts.
* Scope and gaps: legacy, BIP143 and BIP341/342 hashes proven equal to the specification for every history of requests, with the caches, and for the interpreter; holds while no code separator offset is left in a previous output's script object (C70_separator_refuted: a code separator executed in a legacy input's prevout script leaks into the scripts hash of a taproot input) and while previous outputs are populated (C70_unpopulated_refuted)

### C71 A block view shows the block the buffer holds and identifies it as the block object does — partial
* Modelled: include/bitcoin/system/chain/views/block_view.hpp: block_view; src/chain/views/block_view.cpp; src/chain/views/transaction_view.cpp.
* Files: `ViewModel.v`, `ViewSpec.v`; theorems in `ViewProps.v`.
* How: Pointer walk over the raw buffer related to the parser of C16/C17; simulation by induction on the transactions.
* Scope and gaps: Proved: acceptance (exact), the shown transactions and block, identify, and the witness commitment verdict. Refuted as such: a block the object codec accepts may be refused by the view (witness stacks of only empty elements: C71_empty_elements_refuted), and data/size with witnesses include bytes after the block (C71_trailing_refuted).

### C72 HD keys are those of BIP32 — partial
* Modelled: src/wallet/keys/hd_private.cpp: from_entropy, from_key, from_string, derive_private, derive_public, to_public, to_hd_key, encoded; src/wallet/keys/hd_public.cpp: from_key, from_string, derive_public, fingerprint; src/crypto/secp256k1/math.cpp; src/crypto/secp256k1/keys.cpp.
* Files: `HdModel.v`, `HdSpec.v`; theorems in `HdProps.v`.
* How: Over an abstract cyclic group (record, hypothesis `curve_ok`); BIP32 functions as specification; path induction.
* Scope and gaps: Over an abstract cyclic group of prime order (libsecp256k1 not modelled; curve_ok). Refuted: the checksum of an extended key is written but never verified (C72_checksum_refuted: any 4 bytes are accepted), an extended public key with an off-curve point is a valid object (C72_point_refuted), and the stream operators discard the parsed key (C72_stream_refuted).

### C73 Private key text (WIF), public key bytes and key addresses — partial
* Modelled: src/wallet/keys/ec_private.cpp: is_wif, from_string, from_compressed, from_uncompressed, from_entropy, encoded, to_public; src/wallet/keys/ec_public.cpp: from_data, from_string, to_data, encoded; src/wallet/addresses/payment_address.cpp: from_private, from_public; src/crypto/secp256k1/keys.cpp.
* Files: `WifModel.v`; theorems in `WifProps.v`.
* How: Composition of C38/C56 with the point codec (65 byte form: `curve65_ok`).
* Scope and gaps: Over an abstract cyclic group (curve_ok, libsecp256k1 not modelled). Refuted: a WIF secret at or above the group order is accepted (C73_range_refuted); keys made from a scalar or from entropy carry WIF version 0 (C73_version_refuted); 33 bytes that begin with 2 or 3 but are no point are a valid public key (C73_point_refuted); encoded() of an uncompressed key that is no point reads uninitialized memory (C73_text_refuted).

### C74 Scalar and point arithmetic is that of the group — partial
* Modelled: src/wallet/keys/ec_scalar.cpp; src/wallet/keys/ec_point.cpp; src/crypto/secp256k1/math.cpp: ec_add, ec_sum, ec_multiply, ec_negate.
* Files: `WifModel.v`; theorems in `WifProps.v`.
* How: Group laws over the abstract cyclic group.
* Scope and gaps: Over an abstract cyclic group (curve_ok). Refuted: 0 + y and 0 - y are 0 (C74_zero_refuted, so addition is not commutative), and the null point is not an identity (C74_identity_refuted).

### C75 AES-256 block encryption is FIPS 197's and is invertible — proved
* Modelled: src/crypto/aes256.cpp: aes256::encrypt_ecb, decrypt_ecb, expand_key, mix_columns, shift_rows, sub_bytes and inverses.
* Files: `AesModel.v`, `AesSpec.v`; theorems in `AesProps.v`.
* How: Byte-level model of the in-place code against a field-theoretic FIPS 197 specification; tables checked by computation over the 256 bytes, lifted to all keys and blocks by linearity of xtime and round-by-round simulation.
* Scope and gaps: Model follows src/crypto/aes256.cpp function by function (in-place loops as assignment sequences); the specification defines the S-box from the field inverse rather than as a table; FIPS 197 C.3 vector computed.

### C76 Deferring signature checks to a batch changes no verdict — proved
* Modelled: include/bitcoin/system/impl/machine/program_batch.ipp: verify_ecdsa_signature, try_batch_multisig_verification, verify_schnorr_signature, is_threshold_batchable; include/bitcoin/system/chain/batch/signatures.hpp: put, verify, verify_group; include/bitcoin/system/chain/batch/multisig.hpp; include/bitcoin/system/chain/batch/threshold.hpp: is_satisfied; src/crypto/secp256k1/batch.cpp: meets_threshold, get_failures; src/chain/block.cpp: connect.
* Files: `BatchModel.v`, `BatchSpec.v`; theorems in `BatchProps.v`, `BatchProps2.v`.
* How: The interpreter, connect and the block loop are modelled a second time with the captured log threaded through; a lockstep relation (equal result when all captured entries are valid, a failing result otherwise) is proved operation by operation, then for runs, programs, connect and blocks. ECDSA capture is sound because the captured operation is last in its script (pattern and parsing); the sixteen element arrays because the count is the constant the pattern requires. Batch verification: the success matrix of a permuted band equals the greedy matching, which equals the existence of an ordered matching.
* Scope and gaps: Model: the interpreter with a capture (BatchModel.v), run in lockstep with the interpreter without (BatchProofs*.v). Assumes that compressing a 65 byte key does not change ECDSA verification (a hypothesis on the two secp256k1 operations). The store that expands groups to rows is another library: the tables are those its documented layout describes (BatchSpec.v), a group's rows in any order. Cancellation, telemetry and accelerated column verifiers (assumed to verify each row) are not modelled.

### C77 Text forms of operations, scripts and witnesses — partial
* Modelled: src/chain/operation.cpp: operation::from_string, operation::to_string; src/chain/script.cpp: script::from_string, script::to_string; src/chain/witness.cpp: witness::from_string, witness::to_string; src/chain/enums/opcode.cpp: opcode_from_mnemonic, opcode_to_mnemonic; src/data/string.cpp: split, trim, reduce.
* Files: `TextModel.v`, `TextSpec.v`; theorems in `TextProps.v`.
* How: Model of the string functions (trim, replace, split, reduce), of the opcode name tables (transcribed mechanically into TextTable.v), of operation/script/witness from_string and to_string (TextModel.v). Words are specified by an inductive relation (TextSpec.v) and shown unique; the name tables are checked by computation over all 256 codes and all table entries; round trips by induction over the operations; decimals through C05.
* Scope and gaps: Proved for complete operations; refuted on three corners: a script with a truncated last push is printed with round brackets but read with angle brackets, so its text is never read back (C77_truncated_script_refuted, for every such script); the text -9223372036854775808 is undefined behaviour (C77_minimum_refuted); the bare word push_N (N in 1..75) is accepted without data and its bytes are a different script (C77_bare_push_refuted).

### C78 Decimal amounts — proved
* Modelled: src/radix/base_10.cpp: decode_base10, encode_base10.
* Files: `AmountModel.v`, `AmountSpec.v`; theorems in `AmountProps.v`.
* How: Character-level model of base_10.cpp (AmountModel.v), with trim from TextModel.v; the value of a digit string is the inductive digits_mean of TextSpec.v; exact_units/round_up_units/canonical_amount state the arithmetic meaning (AmountSpec.v). Induction over digits; the encoder through the digits of the printed integer.
* Scope and gaps: exact characterization of strict and rounding decode, canonical encode, round trip

### C79 Borromean ring signatures — proved
* Modelled: src/crypto/ring_signature.cpp: sign, verify, calculate_e0, join_rings, calculate_last_R_signing, calculate_last_R_verify.
* Files: `RingModel.v`, `RingSpec.v`; theorems in `RingProps.v`.
* How: Model of ring_signature.cpp over the abstract curve of EcModel.v (RingModel.v), with out of bounds access as an outcome. Specification as an inductive walk of links around each ring (RingSpec.v). Verification is proved equivalent to it; signing by splitting each ring at the known key (prefix from join, closing equation, suffix from e0). The scalar field facts rest on a Pocklington certificate that the group order is prime (PrimeProofs.v, OrderPrime.v). Refuted: short proof lists are read out of bounds; a challenge above the order makes sign return a signature that does not verify.
* Scope and gaps: verification = closed ring walks; sign verifies unless a challenge hash is no scalar; refuted: short proofs read out of bounds, sign with an out of range challenge

### C80 Bit strings — partial
* Modelled: src/stream/binary.cpp: is_base2, from_data, from_string, encoded, operator[], operator==; include/bitcoin/system/stream/binary.hpp: class binary.
* Files: `BinModel.v`, `BinSpec.v`; theorems in `BinProps.v`.
* How: Model of binary.cpp over the bit reader and writer models of C57 (BinModel.v). Specification: the bytes hold a list of booleans (BinSpec.v), shown to determine the value. Induction over the written and read bits; the masked last byte by the bit lemmas of BitProofs.v. Refuted: operator[] compares the byte index with the number of bits.
* Scope and gaps: Text, data, equality and indexing within the string are proved. Indexing past the end is refuted: the byte index is compared with the number of bits, so the read is outside the bytes.

### C81 Stealth payments — proved
* Modelled: src/wallet/keys/stealth.cpp: create_ephemeral_key, create_stealth_script, extract_ephemeral_key, shared_secret, uncover_stealth; src/wallet/addresses/stealth_sender.cpp: initialize; src/wallet/addresses/stealth_receiver.cpp: stealth_receiver, derive_address, derive_private.
* Files: `StealthModel.v`, `StealthSpec.v`; theorems in `StealthProps.v`.
* How: Models of stealth.cpp, stealth_sender.cpp and stealth_receiver.cpp (StealthModel.v) over EcModel, PatternModel and BinModel, with hash functions as parameters. Specification in StealthSpec.v: the paid secret b + H(esG), the script form, the bits of the script hash. The nonce search (2^32-1 steps, wrapping) by induction on its binary count; key equations by the primality of the group order (OrderPrime.v).
* Scope and gaps: Over any curve in the sense of EcModel.curve_ok and any hash functions of the right output size; null data matching and serialization through C63/C14.

### C82 Stealth address encoding — partial
* Modelled: src/wallet/addresses/stealth_address.cpp: from_string, from_stealth, to_chunk, reuse_key, encoded.
* Files: `StealthModel.v`, `StealthSpec.v`; theorems in `StealthProps2.v`.
* How: Model of stealth_address.cpp (StealthModel.v). Specification: the record of encoded fields, its layout and meaning (StealthProps2.v). Decoding is proved equivalent to being a layout; round trips follow. Refuted: the scan key twice among the spend keys gives text that is not an address; a later scan key is moved to the front.
* Scope and gaps: Decoding is characterised exactly. The round trip is proved for addresses whose scan key is not a spend key or is only the first; it is refuted for a repeated scan key (text not decodable) and for a scan key in another place (order changed).

### C83 Encrypted keys (BIP38) — partial
* Modelled: src/wallet/keys/encrypted_keys.cpp encrypt, decrypt, create_token, create_key_pair; src/wallet/keys/parse_encrypted_keys/parse_encrypted_private.cpp, parse_encrypted_public.cpp, parse_encrypted_token.cpp.
* Files: `EkModel.v`; theorems in `EkProps.v`.
* How: Model of encrypted_keys.cpp and the three parsers (EkModel.v) over the curve of WifModel.v and the AES-256 of AesModel.v (whose decrypt-after-encrypt theorem is C75); scrypt, the hashes and Unicode normalization are any functions with results of the right size. The statements are about the composed calls only (encrypt then decrypt; token, then key pair, then decrypt and confirm), through the field layout of the slices, XOR cancellation and the primality of the group order (a product of valid secrets is a valid secret). Refuted: create_token with a lot reports success when no token was made.
* Scope and gaps: All proved except that create_token with a lot reports success when the derived secret is not valid (C83_token_lot_refuted).

### C84 Electrum seeds are the first acceptable candidate of their entropy, and read back — partial
* Modelled: src/wallet/mnemonics/electrum.cpp: encoder, decoder, grinder, validator, seeder, from_entropy, from_words, to_prefix, is_prefix; include/bitcoin/system/wallet/mnemonics/electrum.hpp: electrum.
* Files: `EseedModel.v`, `EseedSpec.v`; theorems in `EseedProps.v`.
* How: Model of electrum.cpp (EseedModel.v) over the BIP39 and electrum_v1 models, their dictionaries and SHA-512. Specification (EseedSpec.v): padded bit strings, spelling (11-bit indexes of words), versions as bytes, the inductive relation of candidates. Proofs: the grinding loop finds the first acceptable try by induction on the limit; masked bytes are the unique padding of the whole words; the version text of the base16 HMAC is decided on its first bytes; round trip from spelling uniqueness. Unicode normalizations are any functions. Refuted with computed examples: portuguese seeds taken for electrum_v1, to_prefix on words it did not normalize.
* Scope and gaps: Proved: generation is exactly the first acceptable candidate, self confirmation, uniqueness of versions, reading of words, the prefix found, the seed. Partial because refuted: the round trip fails in portuguese (C84_round_trip_refuted; proved for every other dictionary), and to_prefix is wrong on words that are not already normal (C84_to_prefix_refuted; proved for normal words). Unicode normalizations are any functions.

### C85 A signed message verifies exactly for the address of the key that signed it — proved
* Modelled: src/wallet/message.cpp: hash_message, sign_message, verify_message, recovery_id_to_magic, magic_to_recovery_id; src/crypto/secp256k1/recover.cpp: sign_recoverable, recover_public.
* Files: `MessageModel.v`, `MessageSpec.v`; theorems in `MessageProps.v`.
* How: Model of message.cpp and recover.cpp (MessageModel.v); libsecp256k1's recoverable signing and recovery are modelled as the ECDSA algebra on the curve of EcModel.v, coordinates being read from serializations; the RFC 6979 nonce is any function. Specification (MessageSpec.v): the ECDSA equation s*k = m + r*q with the coordinates of k*G, the layout of the signature, the preimage. Proofs: Fermat inverses modulo the order (primality proved in OrderPrime.v), negation symmetry for the low s, byte layout; verify is an equivalence, sign then verify follows from it. A curve with mirrored coordinates meets the hypotheses.
* Scope and gaps: Verification as an equivalence with the ECDSA equation for the address's key, sign then verify (secret, key object, WIF text), magic bytes, injective preimage, malleability. libsecp256k1's group operations are the curve parameter; the RFC 6979 nonce and the hashes are any functions of the right ranges.

### C86 Unicode normal forms: NFC, NFD, NFKC and NFKD of any text — partial
* Modelled: src/unicode/normalization.cpp: decompose_one, canonical_order, composition_lookup, compose, normal_form; src/unicode/unicode_tables.cpp; src/unicode/code_points.cpp: combining_index, unicode_data1, unicode_data2; src/unicode/conversion.cpp: to_utf.
* Files: `UniModel.v`, `UniSpec.v`; theorems in `UniProps.v`.
* How: Model of normalization.cpp over the library's own tables (UniModel.v, UniData.v generated from unicode_tables.cpp and code_points.cpp; code point strings as lists; boost's UTF-8 conversion by its documented strictness). Specification (UniSpec.v): equivalence as the closure of decomposing and of exchanging neighbouring marks of different classes; canonical order; decomposed. Proofs: insertion sort per run, confluence of the exchanges, every composition step is an equivalence under an invariant of the scan (classes of the skipped marks), all for any tables with stated properties (UniProofs.v); the properties of the real tables by computation over all blocks and rows (UniTables*.v, arrays read through maps proved equal to the lists); binary search sound and complete. Refuted: text that is not UTF-8, and the class table of Unicode 13 against decompositions of Unicode 15 (a concrete pair of equivalent sequences).
* Scope and gaps: All four forms over the library's tables. Partial: refuted for text that is not UTF-8 (cleared to empty) and for marks newer than the class table (Unicode 13 classes with Unicode 15 decompositions). boost's UTF conversion is modelled by its documentation; case folding is not modelled.

### C87 A bitcoin URI is accepted exactly when it is a payment request, and its text gives it back — partial
* Modelled: src/wallet/addresses/bitcoin_uri.cpp: bitcoin_uri::set_scheme, bitcoin_uri::set_authority, bitcoin_uri::set_path, bitcoin_uri::set_parameter, bitcoin_uri::set_address, bitcoin_uri::set_amount, bitcoin_uri::amount, bitcoin_uri::label, bitcoin_uri::encoded, bitcoin_uri::operator==; include/bitcoin/system/wallet/addresses/uri_reader.hpp: uri_reader::parse; src/wallet/addresses/uri.cpp: uri::decode_query, uri::encode_query.
* Files: `UriModel.v`, `UriSpec.v`; theorems in `UriProps.v`.
* How: Model of bitcoin_uri.cpp and of uri_reader::parse (UriModel.v) over the components of a URL library (an oracle: Boost.URL parsing and building are not modelled; the map of the query is a sorted list). Specification (UriSpec.v): when components are a payment request, last values, exact bitcoin amounts by C78, addresses by C56 and C82, objects by an inductive history of reading and setters. Proofs: sorted maps are determined by lookups, the loop over the query by induction, an invariant of all objects; the round trip assumes the stated law of the library (a text it builds from a base58 path parses to the same components), met by a toy library. Refuted: equal texts for unequal objects (the scheme is compared but not rendered).
* Scope and gaps: Proved for all component lists and setter histories. Equality of objects is partial: operator== also compares whether a scheme was read, which the text does not show (C87_equality_refuted). The URL library is an oracle with a stated law.

### C88 Version numbers read back from their text and compare in one total order — partial
* Modelled: src/config/version.cpp: operator>>, operator<<, version::to_string, operator==, operator<, operator<=, operator>, operator>=; include/bitcoin/system/impl/serial/deserialize.ipp: deserialize; src/data/string.cpp: split.
* Files: `VerModel.v`, `VerSpec.v`; theorems in `VerProps.v`.
* How: Model of config/version.cpp with the splitter of data/string.cpp (TextModel.v) and number parsing of deserialize.ipp (istream extraction: digits up to the first other character). Specification (VerSpec.v): numbers as digit strings, joined texts, the order by first difference. Proofs: splitting inverts joining, decimal digits by C78/C77 lemmas, trichotomy and transitivity by induction. Refuted: other texts are accepted too (1.2-rc1).
* Scope and gaps: All well-formed texts, all versions and the order are proved; that only well-formed texts are accepted is refuted (C88_grammar_refuted: trailing characters, empty parts and a plus sign are ignored).

### C89 Checkpoints decide whether a header is in conflict, and read back from their text — partial
* Modelled: src/chain/checkpoint.cpp: checkpoint::is_at, checkpoint::is_under, checkpoint::is_conflict, checkpoint::from_string, operator>>, checkpoint::to_string.
* Files: `VerModel.v`, `VerSpec.v`; theorems in `VerProps.v`.
* How: Model of chain/checkpoint.cpp (VerModel.v): lists of checkpoints, from_string, text by C37. Proofs: membership characterizations; text as for C88. Refuted for lists with two hashes at one height, of which only the first is compared.
* Scope and gaps: is_conflict is partial: it looks only at the first checkpoint of the height (C89_conflict_refuted), exact when heights do not repeat with different hashes. Everything else is proved; acceptance of texts other than hash:height is not characterized.

### C90 TIFF images made from pixels say what the pixels are — partial
* Modelled: src/wallet/addresses/tiff.cpp: tiff::to_image.
* Files: `TiffModel.v`, `TiffSpec.v`; theorems in `TiffProps.v`.
* How: Model of wallet/addresses/tiff.cpp (TiffModel.v) as the bytes written. Specification (TiffSpec.v): a reader of TIFF 6.0 files that follows the offsets in header and directory. Proofs: the four bytes of each number, then the reader evaluated on a file with symbolic digits and pixels. Refuted: the resolution unit written is 1, which TIFF reads as no absolute unit; the inch is 2.
* Scope and gaps: Acceptance is proved in full and the image as a reader sees it, except the unit: 72 pixels per inch is refuted, since the file says no absolute unit.

### C91 Properties written as JSON are JSON texts of the values they were made from — partial
* Modelled: src/serial/props.cpp: props::write, props::from_number, array_props::add, object_props::add.
* Files: `PropsModel.v`, `PropsSpec.v`; theorems in `PropsProps.v`, `PropsProps2.v`.
* How: Model of serial/props.cpp writing JSON (PropsModel.v; the info and xml formats are not modelled), with the constructors that build trees. Specification (PropsSpec.v): JSON values and the grammar of RFC 8259 as mutually inductive relations between values and texts. Proofs: induction over nested trees; texts determine values since first characters and following delimiters tell kinds and ends. Refuted: strings and names are not escaped, and the range of numbers is off by one at both ends.
* Scope and gaps: When writing succeeds is proved in full; that the text is JSON of the values is proved for strings and names that need no escape, and refuted for the others (nothing is escaped). The documented number range is refuted at both ends.

### C92 SipHash is SipHash-2-4 for every key and message — proved
* Modelled: src/hash/siphash.cpp: siphash; include/bitcoin/system/hash/siphash.hpp: to_siphash_key.
* Files: `SipSpec.v`; theorems in `SipProps.v`.
* How: Model of hash/siphash.cpp (in GolombModel.v). Specification (SipSpec.v): the round of the paper and its padding as words at positions of the padded message. Proofs: rotation as multiplication and division, the loop by induction, the last word by digits; the test vector of the paper.
* Scope and gaps: SipHash-2-4 as published, for all keys and messages.

### C93 Searching, ordering and parting collections — proved
* Modelled: include/bitcoin/system/impl/data/collection.ipp: binary_search, insert_sorted, distinct, is_distinct, is_sorted, contains, find_position, difference, is_intersecting, part, starts_with.
* Files: `CollModel.v`, `CollSpec.v`; theorems in `CollProps.v`.
* How: Model of impl/data/collection.ipp (CollModel.v), polymorphic in the element and its comparisons; std::sort is insertion (for total orders the result is the same), std::unique, std::find and std::upper_bound as loops. Specification (CollSpec.v): total orders, order and strict increase by positions. Proofs: loop invariants of the search by induction on fuel shown sufficient, and list inductions.
* Scope and gaps: For every element type with a total order; reverse, projection, pop and deep_equal are not modelled.

### C94 Network authorities read back from their text, and compare as hosts and subnets — partial
* Modelled: src/config/authority.cpp: authority::authority, operator>>, operator<<, operator==; src/config/utilities.cpp: parse_authority, denormalize, to_literal, is_member.
* Files: `AuthModel.v`, `AuthSpec.v`; theorems in `AuthProps.v`.
* How: Model of config/authority.cpp and the parts of config/utilities.cpp it uses (AuthModel.v): the regular expression as a scanner; addresses, their text and the hosts of a subnet are those of a library (an oracle with stated laws, met by a toy library). Specification (AuthSpec.v): mapped addresses, lawful libraries, usable bits, compatible ports. Refuted: transitivity (an unspecified port matches all), and the equality of equal texts (reading does not map ::ffff:102:304).
* Scope and gaps: Construction, round trip (under stated laws of the address library) and the meaning of comparison are proved in full. Transitivity, and equality of authorities with the same text, are refuted.

## Findings

Proved `_refuted` theorems: places where the code differs from the property's natural reading. Consensus relevant first.

* `C70_separator_refuted` — executing OP_CODESEPARATOR in a legacy input's previous output script leaves an offset in that shared script object; the BIP341 scripts hash of another (taproot) input then hashes a truncated script.
* `C62_inactive_witness_refuted` — a witness present while segwit is inactive is refused instead of ignored.
* `C12_early_exit_refuted` — CHECKMULTISIG evaluates (and may reject on encoding) signatures the reference never looks at.
* `C25_negative_version_refuted`, `C24_*_refuted`, `C23_*_refuted`, `C22_*_refuted`, `C20` static limit, `C18` compress of powers of 256, `C59_small_heights_refuted`, `C26_two_level_copy_refuted`, `C29_saturation_refuted` — corner cases of chain state, compact bits, BIP34 and malleation detection.
* `C43_stack_refuted`, `C43_scripts_refuted` — false negatives in multi-target compact filter matching.
* `C68_out_of_memory_refuted` — scrypt reports success with unmixed output when its working set cannot be allocated.
* `C66_hkdf_maximum_refuted` — HKDF of more than 254 blocks never ends.
* `C48_limit_refuted` — the checked accumulator's whole-block path skips the overflow test.
* `C72_checksum_refuted` — extended keys' checksums are never verified; `C72_stream_refuted`, `C72_point_refuted`.
* `C73_version_refuted`, `C73_range_refuted`, `C73_point_refuted`, `C73_text_refuted` — WIF version zero, unreduced secrets, off-curve public keys, uninitialized read.
* `C74_zero_refuted`, `C74_identity_refuted` — zero scalars and null points are not identities.
* `C77_truncated_script_refuted`, `C77_minimum_refuted`, `C77_bare_push_refuted` — script text: `(..)` printed but `<..>` read, the least int64 is undefined behaviour, bare push words give other bytes.
* `C79_short_proofs_refuted` — ring signature verification checks only the number of proof lists; a list shorter than its ring is read out of bounds (only a debug assertion guards it). `C79_sign_refuted` — a challenge hash not below the group order makes `sign` return true with a signature that does not verify (and that reveals the salt).
* `C80_index_refuted` — `binary::operator[]` compares the byte index with the number of bits, so an index past the end (within eight times the bit count) reads outside the byte vector instead of giving false.
* `C82_round_trip_refuted` — a stealth address whose spend keys hold the scan key twice is valid, but its text is not an address (`to_chunk` drops every copy and decrements the count once). `C82_order_refuted` — a scan key that is not the first spend key comes back first.
* `C83_token_lot_refuted` — `create_token` with a lot and sequence ignores the result of making the token: when the derived secret is not valid it returns true and leaves the token as it was, though the header says it returns false (the form without a lot does).
* `C84_to_prefix_refuted` — `electrum::to_prefix` normalizes the words to find the dictionary but then derives the prefix from the words as given, so upper case words that `is_prefix` and `from_words` call a standard seed have no prefix. `C84_round_trip_refuted` — `from_words` tries `electrum_v1` in the requested language while generation only avoids it in english, so a generated portuguese seed is read back as a first Electrum seed with other entropy.
* `C86_invalid_refuted` — a passphrase that is not valid UTF-8 normalizes to the empty string (`to_utf` clears on a conversion error and `normal_form` has no way to report it), so every such passphrase yields the same seed or key as no passphrase. `C86_class_refuted` — `combining_index`/`unicode_data*` are Unicode 13.0 data while the decomposition and composition tables are 15.0: marks added since (U+0899, …) have class 0, and canonically equivalent passphrases containing them (a, U+0301, U+0899 in either order of the marks) normalize to different texts.
* `C87_equality_refuted` — `bitcoin_uri::operator==` compares the scheme read, which `encoded` always renders: an object made by the setters is not equal to the one read from its own text, although neither is less than the other.
* `C88_grammar_refuted` — `version("1.2-rc1")` is accepted as 1.2 (also "1..2", "+1.2"): stream extraction stops at the first other character and the rest is not checked.
* `C89_conflict_refuted` — `checkpoint::is_conflict` stops at the first checkpoint of the height: with two different hashes configured at one height the second is never enforced, and which one depends on the order of the list.
* `C90_inch_refuted` — `tiff.cpp` writes ResolutionUnit 1, named pixels_per_inch, but TIFF 6.0 says 1 is no absolute unit, 2 the inch and 3 the centimeter: the enumeration is off by one.
* `C91_escape_refuted`, `C91_range_refuted` — `props` writes strings and names unescaped (a quote makes the JSON invalid or changes its structure), and `from_number` accepts -2^53 and refuses 2^53 - 1 although the comment states [-2^53 + 1, 2^53 - 1].
* `C94_mapped_refuted`, `C94_transitive_refuted` — reading `[::ffff:102:304]` keeps the IPv4-mapped form (constructors unmap it), so an authority with the text 1.2.3.4 is not equal to 1.2.3.4; equality of authorities is not transitive (an unspecified port equals different ports).
* `C39_*_refuted`, `C41_*_refuted`, `C56_*_refuted`, `C63_*_refuted`, `C69_detect_refuted`, `C71_*_refuted`, `C16_*`, `C15`, `C57_*`, `C50_*`, `C51_*`, `C02`, `C04` — parsing and utility corner cases, each with its witness in the theorem.

## Wrong programs

`seeded/LOG.jsonl` records each edit of the model in a scratch copy: the definition, the edit, the claim it breaks, which theorems failed, what was tightened afterwards.
