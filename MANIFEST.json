{
 "claims": [
  {
   "property": "C01",
   "status": "proved",
   "theorems": [
    "C01_add_uint",
    "C01_add_int"
   ],
   "note": "add-int/add-uint exact or abort with code 0, for all operands, any store and any module containing the standard library."
  },
  {
   "property": "C02",
   "status": "partial",
   "theorems": [
    "C02_sub_int",
    "C02_sub_uint_partial",
    "C02_sub_uint_wrong_set",
    "C02_sub_uint_refuted"
   ],
   "note": "Signed: proved in full. Unsigned: the full statement is FALSE of the code (C02_sub_uint_refuted); proved outside the exact set of wrong inputs, and the wrong set is characterised (C02_sub_uint_wrong_set): high limb of the subtrahend 2^64-1 and the low limbs borrow."
  },
  {
   "property": "C03",
   "status": "partial",
   "theorems": [
    "C03_mul_uint",
    "C03_mul_int_partial",
    "C03_mul_int_wrong_set",
    "C03_mul_int_refuted"
   ],
   "note": "Unsigned: proved in full. Signed: FALSE exactly when the product is -2^127 and neither factor is 1 (C03_mul_int_refuted, C03_mul_int_wrong_set); proved for every other pair."
  },
  {
   "property": "C04",
   "status": "proved",
   "theorems": [
    "C04_div_uint",
    "C04_mod_uint",
    "C04_div_int",
    "C04_mod_int"
   ],
   "note": "Truncated quotient/remainder for all operands; zero divisor aborts with code 2; MIN / -1 aborts with code 0."
  },
  {
   "property": "C05",
   "status": "partial",
   "theorems": [
    "C05_pow_uint",
    "C05_pow_int_partial",
    "C05_pow_int_negative_exponent",
    "C05_pow_int_wrong_set",
    "C05_pow_int_refuted"
   ],
   "note": "uint: proved in full (with the exact error code). int: FALSE exactly for base -1 and exponent > 127 (C05_pow_int_refuted); proved for every other pair, negative exponents included."
  },
  {
   "property": "C06",
   "status": "proved",
   "theorems": [
    "C06_log2_uint",
    "C06_log2_int",
    "C06_sqrti_uint",
    "C06_sqrti_int"
   ],
   "note": "log2 and sqrti are exact floors; error codes 3 and 4 on the invalid inputs."
  },
  {
   "property": "C07",
   "status": "proved",
   "theorems": [
    "C07_compare_uint",
    "C07_compare_int"
   ],
   "note": "All eight integer comparisons."
  },
  {
   "property": "C08",
   "status": "proved",
   "theorems": [
    "C08_lt_buff",
    "C08_gt_buff",
    "C08_le_buff",
    "C08_ge_buff",
    "C08_lex_total",
    "C08_lex_irrefl",
    "C08_lex_trans"
   ],
   "note": "All four byte-sequence comparisons on arbitrary (possibly overlapping) ranges; lexicographic order specified independently and shown to be a strict total order."
  },
  {
   "property": "C09",
   "status": "proved",
   "theorems": [
    "C09_bit_and_uint",
    "C09_bit_and_int",
    "C09_bit_or_uint",
    "C09_bit_or_int",
    "C09_bit_xor_uint",
    "C09_bit_xor_int",
    "C09_bit_not_uint",
    "C09_bit_not_int",
    "C09_shift_left_uint",
    "C09_shift_left_int",
    "C09_shift_right_uint",
    "C09_shift_right_int"
   ],
   "note": "All bitwise operations and shifts, int and uint."
  },
  {
   "property": "C10",
   "status": "proved",
   "theorems": [
    "C10_to_uint",
    "C10_to_int"
   ],
   "note": ""
  },
  {
   "property": "C11",
   "status": "partial",
   "theorems": [
    "C11_buff_to_uint_be",
    "C11_buff_to_int_be",
    "C11_buff_to_uint_le_partial",
    "C11_buff_to_int_le_partial",
    "C11_buff_to_uint_le_refuted"
   ],
   "note": "Proved for every length <= 16 and > 16 (abort). The little-endian reader always loads 16 bytes, so it needs 16 readable bytes at the address; without that hypothesis the claim is FALSE (refuted: traps at the very end of memory)."
  },
  {
   "property": "C12",
   "status": "partial",
   "theorems": [
    "C12_string_to_uint_partial",
    "C12_utf8_to_uint_partial",
    "C12_string_to_int_partial",
    "C12_utf8_to_int_partial",
    "C12_uint_wrong_set",
    "C12_uint_utf8_wrong_set",
    "C12_long_strings_none",
    "C12_string_to_uint_refuted",
    "C12_utf8_to_uint_refuted",
    "C12_string_to_int_refuted"
   ],
   "note": "FALSE in full: digit strings with value >= 2^128+4 and last digit <= 5 parse to a wrapped uint (exact wrong answers proved), and strings of more than 39 digits are rejected even if zero-padded (refuted and characterised). Proved for every other string, ASCII and UTF-8, int and uint."
  },
  {
   "property": "C13",
   "status": "proved",
   "theorems": [
    "C13_uint_to_ascii",
    "C13_uint_to_utf8",
    "C13_int_to_ascii",
    "C13_int_to_utf8",
    "C13_canonical_unique"
   ],
   "note": "Canonical decimal text at the output address, exact length, nothing else changed; the canonical text is unique. The hypotheses require room for the longest text (39/40 characters) and an output address >= 1 (>= 4 for utf8), which every reachable address meets."
  },
  {
   "property": "C14",
   "status": "proved",
   "theorems": [
    "C14_uint_ascii",
    "C14_int_ascii",
    "C14_uint_utf8",
    "C14_int_utf8"
   ],
   "note": "All four print/parse pairs."
  },
  {
   "property": "C15",
   "status": "proved",
   "theorems": [
    "C15_sha256"
   ],
   "note": "stdlib.sha256-buf, for every buffer below 2^29 bytes, every placement of message, output and scratch space; frame included"
  },
  {
   "property": "C16",
   "status": "proved",
   "theorems": [
    "C16_sha512"
   ],
   "note": "stdlib.sha512-buf, for every buffer below 2^29 bytes, every placement of message, output and scratch space; frame included"
  },
  {
   "property": "C17",
   "status": "proved",
   "theorems": [
    "C17_hash160"
   ],
   "note": "stdlib.hash160-buf, for every buffer below 2^29 bytes, every placement of message, output and scratch space; frame included"
  },
  {
   "property": "C18",
   "status": "proved",
   "theorems": [
    "C18_sha256_int",
    "C18_sha512_int",
    "C18_hash160_int"
   ],
   "note": "the -int entry points, signed and unsigned"
  },
  {
   "property": "C19",
   "status": "partial",
   "theorems": [
    "C19_contract_name_partial",
    "C19_contract_name_refuted",
    "C19_version",
    "C19_principal_construct_partial",
    "C19_construct_unique"
   ],
   "note": "Name validation decides the contract-name grammar, version validation the network's versions, and principal construction returns the specified response and bytes, writing only its result area. Restriction: an 11-byte name must end >= 5 bytes before the end of memory, because the comparison with __transient loads 16 bytes (C19_contract_name_refuted shows it traps otherwise)."
  },
  {
   "property": "C20",
   "status": "proved",
   "theorems": [
    "C20_is_valid_string_ascii"
   ],
   "note": "Legal characters are 32..126 and tab, newline, form feed, carriage return."
  },
  {
   "property": "C21",
   "status": "partial",
   "theorems": [
    "C21_convert_scalars",
    "C21_utf8_accepts",
    "C21_utf8_rejects_partial",
    "C21_utf8_rejects_refuted",
    "C21_encode_decode",
    "C21_decode_encode",
    "C21_utf8_unique"
   ],
   "note": "Encoding, decoding of every accepted input, uniqueness and both inverse laws proved in full against an independent UTF-8 specification. Rejection of ill-formed or too long input is proved when 4*max-len bytes are readable from the input's address; without that the code reads past the end of memory and traps on truncated input (C21_utf8_rejects_refuted)."
  },
  {
   "property": "C22",
   "status": "proved",
   "theorems": [
    "C22_compare_names",
    "C22_bsearch",
    "C22_compare_empty_refuted"
   ],
   "note": "For all non-empty names (Clarity names are never empty) and every strictly sorted, non-empty key table in the compiler's layout (the table builder of deserialize.rs is modelled). C22_compare_empty_refuted shows the restriction is needed."
  },
  {
   "property": "C23",
   "status": "partial",
   "theorems": [
    "C23_skip_value_partial",
    "C23_unknown_prefix_partial",
    "C23_truncated_integer_partial",
    "C23_bad_ascii_partial",
    "C23_refuses_refuted",
    "C23_past_the_end_refuted",
    "C23_backwards_refuted",
    "C23_version_refuted",
    "C23_transient_refuted"
   ],
   "note": "Every well-formed value of any nesting without lists, unconditionally; values with lists under the hypothesis that the host import skip_list (a call to the clarity crate's deserializer, not modelled) finds the end of each of the value's outermost lists. Malformed input: refusal proved for unknown prefixes, truncated integers and bad or truncated ASCII strings; the general claim is false and refuted five times (some-of-nothing, names past the end, wrapping buffer lengths, version 32, __transient)."
  },
  {
   "property": "C24",
   "status": "proved",
   "theorems": [
    "C24_pure_functions",
    "C24_memory_functions"
   ],
   "note": "Purity of 72 runtime functions for every argument (also invalid ones) and store, by a proved-sound effect analysis of their code; the printing, hashing and text functions change memory contents only, and C13, C19, C21 (and the hash claims) give the exact area."
  },
  {
   "property": "C25",
   "status": "partial",
   "theorems": [
    "C25_uint_binary_halts_partial",
    "C25_int_binary_halts_partial",
    "C25_int_shifts_halt_partial",
    "C25_unary_halts_partial",
    "C25_buffers_halt_partial",
    "C25_parsing_halts_partial",
    "C25_printing_halts_partial",
    "C25_skip_halts_refuted"
   ],
   "note": "Every exported integer function for all operands; buffer, parsing, printing and name functions for all contents inside memory; the hash functions terminate by C15-C18 and check-clarity-name by C55. skip-unknown-value does not always terminate (C25_skip_halts_refuted: 19 bytes on which it recurses for ever). Missing: bsearch on unsorted tables, the utf8 conversions outside memory."
  },
  {
   "property": "C26",
   "status": "partial",
   "theorems": [
    "C26_host_roundtrip_partial",
    "C26_reader_complete",
    "C26_representation_unambiguous",
    "C26_trait_reference_refuted"
   ],
   "note": "Proved for every type without trait references, every value, any placement, and any later change of memory outside the two areas written. FALSE for trait references: the writer has no case for them (C26_trait_reference_refuted). Memory below 2 GiB (the offsets are i32). The reader is complete for every representation, trait references included, and representations are unambiguous."
  },
  {
   "property": "C27",
   "status": "proved",
   "theorems": [
    "C27_sizes_written",
    "C27_fixed_size_is_word_size",
    "C27_maximum_reached"
   ],
   "note": "For every value the writer accepts (all types without trait references): exact fixed size, bounded payload, nothing else written; the fixed size equals the bytes of the Wasm words; the bound is reached."
  },
  {
   "property": "C28",
   "status": "proved",
   "theorems": [
    "C28_store_then_load",
    "C28_values_survive",
    "C28_reserved_space"
   ],
   "note": "For every type, any well-formed state of the local allocator and any store; types without unknown parts keep their words exactly, all types keep the represented value. Only the bytes of the value and no local in use change."
  },
  {
   "property": "C29",
   "status": "proved",
   "theorems": [
    "C29_emitted_store_host_read",
    "C29_host_write_emitted_load"
   ],
   "note": "Emitted stores read back by the host's reader as the same value; host writes (trait references excluded: the writer fails on them, C26) loaded by emitted code as a representation of the same value."
  },
  {
   "property": "C30",
   "status": "proved",
   "theorems": [
    "C30_serialize",
    "C30_to_consensus_buff"
   ],
   "note": "serialize.rs is modelled for every type; the code is proved to write exactly the SIP-005 bytes and length; the word to-consensus-buff? yields some/none by the 1048576-byte limit. The tuple-key literals are assumed to be present in memory (C34) and the value's bytes disjoint from the output area."
  },
  {
   "property": "C31",
   "status": "proved",
   "theorems": [
    "C31_injective",
    "C31_prefix_free",
    "C31_unique_parse"
   ],
   "note": "Injectivity and prefix-freedom of SIP-005 bytes (SpecSer.sip005) for all values that exist in Clarity; C31_unique_parse is the streaming form."
  },
  {
   "property": "C32",
   "status": "proved",
   "theorems": [
    "C32_and_stops_at_false",
    "C32_or_stops_at_true",
    "C32_and_or_all_operands",
    "C32_if_takes_one_branch"
   ],
   "note": "For functions whose body is the and/or/if, with arbitrary well-typed operands and any called functions; a corollary of C46 stated without the evaluator's own and/or/if."
  },
  {
   "property": "C33",
   "status": "proved",
   "theorems": [
    "C33_equality_test",
    "C33_is_eq"
   ],
   "note": "The emitted comparison, for every type for which it is implemented (trait references are rejected at compile time), any two values and any representations of them: pushes 1 exactly when the values are equal, store untouched, first operand's locals restored. C33_is_eq: the whole is-eq word with any number of operands."
  },
  {
   "property": "C34",
   "status": "proved",
   "theorems": [
    "C34_literals_readable",
    "C34_standard_data_intact",
    "C34_literals_do_not_overlap",
    "C34_equal_literals_share",
    "C34_literal_contents"
   ],
   "note": "For every sequence of compilation steps whose total demand is below 2^32: each literal reads back at its returned offset/length in the instantiated memory, standard data intact, no overlap, interned literals share. Identifiers must not start with a double quote (the compiler passes Clarity names; C34_quoted_identifier_clash shows why)."
  },
  {
   "property": "C35",
   "status": "partial",
   "theorems": [
    "C35_pages_sufficient_and_least_partial",
    "C35_wraps_refuted"
   ],
   "note": "Proved for total demand < 2^32; beyond, the u32 sum wraps and the declared memory is too small (C35_wraps_refuted). Frame space is what create_call_stack_local reserves; that running code stays within it is not part of this claim."
  },
  {
   "property": "C36",
   "status": "partial",
   "theorems": [
    "C36_public_call_partial",
    "C36_read_only_call_partial",
    "C36_savepoints_balanced_partial",
    "C36_abort_keeps_outer_savepoints_partial"
   ],
   "note": "Proved for arbitrary module code in which savepoints are opened and closed only by the two call sequences the generator emits (well_bracketed): an err restores the tables exactly, an ok keeps exactly the callee's, read-only calls never change them, any nesting leaves the savepoints balanced. For aborts the code itself restores nothing: proved that the outer savepoints survive underneath those opened since (so the VM can restore them). That the generator emits only well-bracketed code is proved where the expression compiler is modelled, not for every word."
  },
  {
   "property": "C37",
   "status": "proved",
   "theorems": [
    "C37_every_history_is_legal",
    "C37_supply_conserved",
    "C37_supply_capped",
    "C37_supply_in_range",
    "C37_debits_are_announced",
    "C37_mint",
    "C37_burn",
    "C37_transfer"
   ],
   "note": "For every history of calls to arbitrary modules (any code, any arguments, memory and globals), VM savepoints and aborts: the tables are explained by legal events, holdings sum to supply, caps and 128-bit range hold, debits are announced; plus the exact result of each operation. The clarity crate's database is modelled as tables (see Ledger.v); at-block is excluded."
  },
  {
   "property": "C38",
   "status": "proved",
   "theorems": [
    "C38_ownership_changes_are_announced",
    "C38_mint",
    "C38_burn",
    "C38_transfer"
   ],
   "note": "Ownership is a function (at most one owner) in the modelled tables; over all histories it changes only by mint/burn/transfer events naming the old or new owner; exact results and error codes of mint, burn and transfer. at-block is excluded."
  },
  {
   "property": "C39",
   "status": "partial",
   "theorems": [
    "C39_charge_exact_partial",
    "C39_cumulative_partial",
    "C39_large_budget_refuted",
    "C39_log_of_zero_refuted",
    "C39_cost_code_unavailable_refuted",
    "C39_missing_words_refuted"
   ],
   "note": "Proved for every word of the three cost tables, every size and every budget below 2^63: exact charge in all five dimensions, nothing else changed, abort with the code of the first exhausted dimension; any sequence of charges stops exactly when the total exceeds the budget. FALSE: budgets from 2^63 abort at once, logarithmic cost at size 0, words missing from the Clarity 1/2 tables, and with_cost_code fails for every contract because the standard library has no cost globals. Which size a word passes is not modelled."
  },
  {
   "property": "C40",
   "status": "proved",
   "theorems": [
    "C40_abort_code_surfaces",
    "C40_arithmetic_errors_surface",
    "C40_other_traps",
    "C40_unknown_codes"
   ],
   "note": "Every payload-free code surfaces as its documented error, composed end to end with the arithmetic aborts; other traps stay engine errors; undocumented codes stop the host. Payload codes 13-15 are covered by C43; short-return payload decoding (7, 9, 10, 12) is a parameter."
  },
  {
   "property": "C41",
   "status": "proved",
   "theorems": [
    "C41_wire_format",
    "C41_accepts_exactly_the_encodings",
    "C41_round_trip",
    "C41_encodings_prefix_free"
   ],
   "note": "Round trip, exact acceptance set (decoding succeeds exactly on encodings of valid identifiers), prefix-freeness."
  },
  {
   "property": "C42",
   "status": "partial",
   "theorems": [
    "C42_arguments_survive_partial",
    "C42_result_slots",
    "C42_argument_room_refuted",
    "C42_trait_list_refuted"
   ],
   "note": "Proved given room above the stack pointer and no trait reference inside a list (other trait references included). Both restrictions are necessary: the declared memory does not count arguments (C42_argument_room_refuted) and lists of trait references cannot be passed (C42_trait_list_refuted)."
  },
  {
   "property": "C43",
   "status": "partial",
   "theorems": [
    "C43_accepts_exactly",
    "C43_reports_counts_partial",
    "C43_reports_counts_refuted"
   ],
   "note": "Acceptance proved exactly. Reported counts: proved when neither count was interned by an earlier mismatch; FALSE in general (C43_reports_counts_refuted): a later mismatch with the same declared count reports the count of the earlier one."
  },
  {
   "property": "C44",
   "status": "partial",
   "theorems": [
    "C44_declared_maximum_partial",
    "C44_declared_maximum_refuted"
   ],
   "note": "Proved when the low 64 bits are below 2^63; FALSE for every other maximum below 2^128-2^64 (C44_declared_maximum_refuted)."
  },
  {
   "property": "C45",
   "status": "partial",
   "theorems": [
    "C45_as_contract_restores",
    "C45_contract_call_keeps_sender",
    "C45_contract_caller_refuted"
   ],
   "note": "as-contract: enter/exit restore both principals when the exit is reached. contract-call?: tx-sender kept; contract-caller is FALSE after every returning call (C45_contract_caller_refuted)."
  },
  {
   "property": "C46",
   "status": "partial",
   "theorems": [
    "C46_compiled_programs_run_as_evaluated_partial",
    "C46_plain_programs_with_host_partial",
    "C46_plain_programs_partial",
    "C46_evaluator_total"
   ],
   "note": "Proved for every well-typed program over the modelled words, including data variables, maps and fungible tokens served by a host that does what a chain specification says (host_ok; C61 discharges it for the modelled host). Unconditional for plain programs (C46_plain_programs_partial, C46_plain_programs_with_host_partial); in general for the inputs where the strict evaluator is defined, i.e. outside the listed divergences, each refuted separately (C47-C49, C57-C60, C64, C02, C03, C05). Well-typed means accepted by the checker in Typing.v, which is narrower than Clarity's (C50). Not modelled here: contract calls, filter, nft and STX words, hashes and buffer conversions, constants."
  },
  {
   "property": "C47",
   "status": "partial",
   "theorems": [
    "C47_asserts_throws_lazily_refuted",
    "C47_asserts_returns_early_refuted"
   ],
   "note": "The full statement is FALSE (two concrete programs); what holds is C46 with thrown expressions that neither abort, return, nor call."
  },
  {
   "property": "C48",
   "status": "partial",
   "theorems": [
    "C48_operands_first_refuted"
   ],
   "note": "The full statement is FALSE (concrete program); C46 covers the inputs on which no prefix overflows before an effect."
  },
  {
   "property": "C49",
   "status": "partial",
   "theorems": [
    "C49_negate_uint_zero_refuted",
    "C49_negate_partial"
   ],
   "note": "FALSE for u0 only; proved for every other integer of both types (C49_negate_partial)."
  },
  {
   "property": "C50",
   "status": "partial",
   "theorems": [
    "C50_try_none_words_refuted",
    "C50_variable_words_refuted",
    "C50_result_words_partial"
   ],
   "note": "FALSE for two programs Clarity accepts; proved for every program of C46 (C50_result_words_partial)."
  },
  {
   "property": "C51",
   "status": "proved",
   "theorems": [
    "C51_map_set",
    "C51_map_insert",
    "C51_map_delete",
    "C51_map_get",
    "C51_var_set",
    "C51_var_get"
   ],
   "note": "host functions and their database tables modelled; values without trait references for the reads (see C26)"
  },
  {
   "property": "C52",
   "status": "proved",
   "theorems": [
    "C52_at_block_leaves_no_trace",
    "C52_unknown_block_aborts"
   ],
   "note": "the code in between may change the tables in any way but must close what it opens (C36)"
  },
  {
   "property": "C53",
   "status": "partial",
   "theorems": [
    "C53_read_only_refuses_map_writes_partial",
    "C53_variable_writes_refuted",
    "C53_token_writes_refuted"
   ],
   "note": "true for map writes only; var-set and token writes are refuted"
  },
  {
   "property": "C54",
   "status": "partial",
   "theorems": [
    "C54_sha_words_partial",
    "C54_hash160_word_partial",
    "C54_hash160_traps_refuted"
   ],
   "note": "sha256 and sha512 in full; hash160 only when 32 more bytes than it reserves are there, and a trap without them (refutation)"
  },
  {
   "property": "C55",
   "status": "proved",
   "theorems": [
    "C55_check_clarity_name"
   ],
   "note": "Full decision, for every byte string in memory."
  },
  {
   "property": "C56",
   "status": "partial",
   "theorems": [
    "C56_reads",
    "C56_round_trip",
    "C56_refuses_partial",
    "C56_refuses_miskeyed",
    "C56_principals_refuted"
   ],
   "note": "Completeness and round trip (C56_reads, C56_round_trip) are proved for every type and every readable input, with the exact memory footprint. Refusal: proved for every input at types without tuples and utf8 strings (C56_refuses_partial), and for every tuple input (also inside optionals and responses) whose items are well formed but with a key of the type missing or repeated (C56_refuses_miskeyed). Refusal of tuples with malformed items and of malformed utf8 is not proved, since the library functions called there are wrong on malformed input (C21, C23). The claim that only Clarity principals are accepted is FALSE (C56_principals_refuted)."
  },
  {
   "property": "C57",
   "status": "partial",
   "theorems": [
    "C57_slice_partial",
    "C57_large_left_end_refuted"
   ],
   "note": "False as stated: the overflow flag of the left position is overwritten by that of the right one, so a left position >= 2^32 is truncated (C57_large_left_end_refuted: (slice? \"abc\" u18446744073709551616 u1) returns (some \"a\")). C57_slice_partial proves the claim for every sequence, every element type and every operand expression whenever the left position is below 2^32 or the right one exceeds the length."
  },
  {
   "property": "C58",
   "status": "partial",
   "theorems": [
    "C58_replace_at_partial",
    "C58_empty_replacement_aborts",
    "C58_empty_replacement_refuted"
   ],
   "note": "False as stated for an empty replacement in a buffer or string: the word aborts before looking at the position (C58_empty_replacement_refuted), also out of range; in range this is the documented error (C58_empty_replacement_aborts). C58_replace_at_partial proves the claim for every other replacement, every sequence, position and operand expression."
  },
  {
   "property": "C59",
   "status": "partial",
   "theorems": [
    "C59_index_of_partial",
    "C59_empty_sequence_refuted"
   ],
   "note": "False as stated on an empty sequence: the second operand is not evaluated at all, so its abort is lost (C59_empty_sequence_refuted). C59_index_of_partial proves both directions of the claim for every non-empty sequence, and for empty ones when the second operand has no effects."
  },
  {
   "property": "C60",
   "status": "partial",
   "theorems": [
    "C60_fold_user_function_partial",
    "C60_fold_sum",
    "C60_in_memory_accumulator_refuted"
   ],
   "note": "False as stated for accumulators held in memory: the value returned by the called function lives in its freed call frame and is overwritten by the next call (C60_in_memory_accumulator_refuted). C60_fold_user_function_partial proves the claim for every user function and every accumulator type not held in memory, and the compiler theorem C46 covers fold of native words; C60_fold_sum is an instance with a closed form."
  },
  {
   "property": "C61",
   "status": "partial",
   "theorems": [
    "C61_words_do_what_clarity_says",
    "C61_programs_act_on_tables_partial",
    "C61_plain_programs_partial",
    "C61_var_get_after_set_partial"
   ],
   "note": "Proved for every well-typed program over the modelled words and every state of the tables: unconditional for plain programs from tables that hold values of their declared types (C61_plain_programs_partial), in general for the runs where the strict evaluator is defined (C61_programs_act_on_tables_partial), with C61_words_do_what_clarity_says giving the meaning of each word on the tables. Inside at-block nothing is said (see C52); nft, STX and contract-call words are not in the compiler model."
  },
  {
   "property": "C62",
   "status": "partial",
   "theorems": [
    "C62_calls_keep_or_restore_tables",
    "C62_compiled_calls_partial",
    "C62_failed_calls_leave_no_trace_partial"
   ],
   "note": "Proved for every well-typed program: at every call site of the reference evaluator (C62_calls_keep_or_restore_tables), including the calls made by fold and map, and end to end for the compiled function whose body is the call: C62_compiled_calls_partial (where the strict evaluator is defined) and, without a condition on the evaluator, C62_failed_calls_leave_no_trace_partial for plain programs. A call nested inside a larger body is covered by combining C62_calls_keep_or_restore_tables with C61. Partial because of the divergences elsewhere in the language (see C46)."
  },
  {
   "property": "C63",
   "status": "partial",
   "theorems": [
    "C63_evaluation_changes_only_tables",
    "C63_compiled_changes_only_tables_partial",
    "C63_plain_programs_restore_sender_partial",
    "C63_sender_restored_refuted"
   ],
   "note": "False of the code: leaving as-contract early skips exit_as_contract, so the contract stays the sender and the caller for the rest of the transaction (C63_sender_restored_refuted, on a compiled program linked to the modelled host). Proved otherwise: Clarity's evaluator changes nothing but tables and memory budget (C63_evaluation_changes_only_tables); so does the compiled program when nothing leaves as-contract early (C63_compiled_changes_only_tables_partial, C63_plain_programs_restore_sender_partial)."
  },
  {
   "property": "C64",
   "status": "partial",
   "theorems": [
    "C64_map_user_function_partial",
    "C64_map_sum",
    "C64_list_literal_refuted"
   ],
   "note": "False for a list built in place and a function of the contract: the generator's workaround relabels the first sequence with as many elements as an element has bytes, so too little space is reserved and the results overwrite the elements not yet read (C64_list_literal_refuted; the relabelling is modelled by map_src on the expressions that reserve their own space). Proved for every other case over the modelled words, any kind and number of sequences: C64_map_user_function_partial, C64_map_sum (native word, closed form), and the general compiler theorem C46. Results with parts in memory are left out (each iteration moves the stack pointer past the frame)."
  },
  {
   "property": "C65",
   "status": "partial",
   "theorems": [
    "C65_filter_not_partial",
    "C65_filter_partial",
    "C65_empty_sequence_refuted"
   ],
   "note": "Proved (C65_filter_partial) for every function whose body is (filter g x), x a parameter of any sequence type and any length but zero, g a function of the program of any kind: exactly the accepted elements, in order, in memory the caller can read, memory below the stack pointer unchanged, or the abort of the first call that aborts. False for the empty sequence: the loop is entered before the length is tested and its counter wraps, so the discriminator is called on memory past the sequence until the end of memory is reached (C65_empty_sequence_refuted). With the word not as discriminator: C65_filter_not_partial, every non-empty list of booleans gives its false elements. Missing: other native words as discriminator (is-standard), filter nested in other expressions (the emitted code relies on a local being zero on entry of the function, which the induction of LangMain does not carry)."
  },
  {
   "property": "C66",
   "status": "partial",
   "theorems": [
    "C66_results_read_back",
    "C66_errors_are_errors_partial",
    "C66_success_words_refuted",
    "C66_is_eq_refuted"
   ],
   "note": "False as stated of the code: the success results of the three NFT operations carry the boolean 132 (linker.rs writes 132 for 1i32). Proved for all arguments and states: what the host reads back is (ok true), (err u1), (err u2) or (err u3); refusals are represented as the error; but (C66_success_words_refuted) success words are those of no value, and (C66_is_eq_refuted) the compiled comparison answers false against every value. C66_ex runs the compiled contract: the token is minted and is-eq says false."
  },
  {
   "property": "C67",
   "status": "partial",
   "theorems": [
    "C67_definition_records_value",
    "C67_literal_records_value",
    "C67_use_returns_value_partial",
    "C67_fitting_constants",
    "C67_read_back_refuted"
   ],
   "note": "Proved: whatever the expression, the value its code leaves on the stack is the one recorded (C67_definition_records_value); literals likewise; a function returning the constant returns words of the recorded value, with the host state, the globals and the memory outside its frame unchanged, whenever the type of the value itself lays out every component that another one follows in as many bytes as the declared type (C67_use_returns_value_partial), which holds for all types without optionals and responses, optionals and ok values of those, and err values whose ok type takes 4 bytes (C67_fitting_constants). The claim in full is false of the code: load_constant writes the value with the value's own type and the generated code reads it with the declared one, so (err 1) declared (response uint int) reads back as (err 0) and {a: none, b: u5} as {a: none, b: u0} (C67_read_back_refuted). Trait references are excluded (C42)."
  },
  {
   "property": "C68",
   "status": "partial",
   "theorems": [
    "C68_meaning_of_at_block",
    "C68_at_block_changes_no_table",
    "C68_compiled_at_block_partial",
    "C68_at_block_is_the_past_partial",
    "C68_early_exit_stays_in_the_past_refuted",
    "C68_variable_reads_the_past_refuted"
   ],
   "note": "Proved for functions whose body is an at-block expression: its meaning (value of the body on the tables of that block, present restored) and that the compiled function does that when neither expression contains a word that leaves the function. False otherwise: after try!/unwrap!/asserts! inside at-block the compiled code goes on in the past (refuted in general and for a concrete contract). Not modelled: at-block nested inside larger expressions, cost charging."
  },
  {
   "property": "C69",
   "status": "proved",
   "theorems": [
    "C69_balance",
    "C69_account",
    "C69_transfer",
    "C69_burn",
    "C69_every_call_is_a_history",
    "C69_holdings_are_announced",
    "C69_only_payers_are_debited",
    "C69_payers_were_the_sender",
    "C69_locked_stx_stay",
    "C69_words"
   ],
   "note": "For every module and state of the chain. The clarity crate's STX balances (STXBalance, STXBalanceSnapshot), which are not in /repo, are modelled as accounts with a free and a locked amount; that model is part of the trusted base. Savepoints around STX (contract calls rolled back) enter the history theorem as imports that do a history of events. A failure (trap, whole transaction) happens only when the memory budget or the per-transaction totals give out."
  },
  {
   "property": "C70",
   "status": "partial",
   "theorems": [
    "C70_meaning_of_contract_call",
    "C70_compiled_call_partial",
    "C70_reference_differs_in_the_caller",
    "C70_same_types_pass",
    "C70_argument_after_none_refuted",
    "C70_argument_space_not_requested_refuted"
   ],
   "note": "Proved for static calls as the body of a function, for arguments whose own types have the layout of the callee's parameter types (C70_compiled_call_partial), with the callee an arbitrary state transformer; C70_meaning_of_contract_call spells out what the reference semantics is. Refuted and characterised otherwise: an argument such as none is laid out by its own type, so the next argument is read from the wrong place (C70_argument_after_none_refuted); the space of the arguments is missing from what the generator requests (C70_argument_space_not_requested_refuted); the caller's contract-caller stays the callee's (C70_reference_differs_in_the_caller, see C45). Not modelled: dynamic calls through a trait, calls nested in other expressions."
  },
  {
   "property": "C71",
   "status": "proved",
   "theorems": [
    "C71_meaning_of_block_info",
    "C71_no_future",
    "C71_compiled_block_info",
    "C71_strict_is_reference",
    "C71_properties_are_wired",
    "C71_imports_are_distinct"
   ],
   "note": "For the word as the body of a function, with any height expression of the modelled language; the chain's database, which is not in /repo, is an arbitrary function of the query, the height and the block looked from (so it cannot depend on what contracts do), giving values of the property's type. C71_meaning_of_block_info spells out the reference semantics, C71_compiled_block_info says the compiled function does just that, C71_no_future that nothing of the present or later is answered, C71_properties_are_wired that each property of each word reaches the query meant."
  },
  {
   "property": "C72",
   "status": "partial",
   "theorems": [
    "C72_print_registers_and_returns",
    "C72_event_is_the_value",
    "C72_strict_is_reference",
    "C72_compiled_print",
    "C72_print_space_refuted"
   ],
   "note": "Proved for every program of statements (sequences, let, if, nested prints) around the expressions of the compiler model, every value type including traits and NoType, any chain state and host: the compiled function gives the evaluator's result and chain state, with the events registered in order. The part about requested memory is false of the code and refuted: print reserves only the bytes of the value and writes its 8-byte representation there. Parsing the type text is a parameter (the parser is in another crate): the texts of a module are assumed to parse to the serialized types. Cost charges are left out."
  },
  {
   "property": "C73",
   "status": "partial",
   "theorems": [
    "C73_standard_iff_destruct_ok",
    "C73_construct_of_parts",
    "C73_parts_of_construct",
    "C73_construct_answers",
    "C73_strict_is_reference",
    "C73_compiled_principals",
    "C73_name_at_the_end_refuted"
   ],
   "note": "False for an 11-byte name that ends less than 5 bytes before the end of memory (C73_name_at_the_end_refuted); with 5 spare bytes proved for all principals, parts, operand expressions, sequences with let and if, layouts and stack positions (C73_compiled_principals), with the round trip both ways and the reasons of every error. Contract names longer than 40 bytes, which principal-destruct? cannot type, are outside."
  },
  {
   "property": "C74",
   "status": "partial",
   "theorems": [
    "C74_text_is_canonical",
    "C74_text_fits",
    "C74_reading_back",
    "C74_strict_is_reference",
    "C74_compiled_conversions",
    "C74_there_and_back",
    "C74_wraps_refuted",
    "C74_empty_string_refuted"
   ],
   "note": "Proved for every program of expressions, these four words, let and if, against a specification that prints with its own digit function (shown to be the only canonical notation). The full claim is false: C74_wraps_refuted (39-digit strings above 2^128), C74_empty_string_refuted (empty string at the end of memory), and long zero-padded strings (C12); the compiled theorem excludes exactly these. Cost charges are not modelled."
  },
  {
   "property": "C75",
   "status": "proved",
   "theorems": [
    "C75_recover_answers",
    "C75_verify_answers",
    "C75_principal_of_answers",
    "C75_strict_is_reference",
    "C75_compiled_crypto",
    "C75_recover_program"
   ],
   "note": "The curve arithmetic and the address computation are parameters: the theorems hold for all functions that give 33-byte keys and standard principals. Cost charges are left out."
  },
  {
   "property": "C76",
   "status": "proved",
   "theorems": [
    "C76_what_is_hashed",
    "C76_digest_program",
    "C76_digest_of_digest",
    "C76_compiled_digest"
   ],
   "note": "The cost charge (the length of the input is kept in a local for it) is left out, as everywhere in the compiler model; the two hash functions themselves are parameters."
  }
 ]
}