{
 "C01": {
  "status": "proved",
  "note": "add-int/add-uint exact or abort with code 0, for all operands, any store and any module containing the standard library."
 },
 "C02": {
  "status": "partial",
  "note": "Signed: proved in full. Unsigned: the full statement is FALSE of the code (C02_sub_uint_refuted); proved outside the exact set of wrong inputs, and the wrong set is characterised (C02_sub_uint_wrong_set): high limb of the subtrahend 2^64-1 and the low limbs borrow."
 },
 "C03": {
  "status": "partial",
  "note": "Unsigned: proved in full. Signed: FALSE exactly when the product is -2^127 and neither factor is 1 (C03_mul_int_refuted, C03_mul_int_wrong_set); proved for every other pair."
 },
 "C04": {
  "status": "proved",
  "note": "Truncated quotient/remainder for all operands; zero divisor aborts with code 2; MIN / -1 aborts with code 0."
 },
 "C05": {
  "status": "partial",
  "note": "uint: proved in full (with the exact error code). int: FALSE exactly for base -1 and exponent > 127 (C05_pow_int_refuted); proved for every other pair, negative exponents included."
 },
 "C06": {
  "status": "proved",
  "note": "log2 and sqrti are exact floors; error codes 3 and 4 on the invalid inputs."
 },
 "C07": {
  "status": "proved",
  "note": "All eight integer comparisons."
 },
 "C09": {
  "status": "proved",
  "note": "All bitwise operations and shifts, int and uint."
 },
 "C10": {
  "status": "proved",
  "note": ""
 },
 "C08": {
  "status": "proved",
  "note": "All four byte-sequence comparisons on arbitrary (possibly overlapping) ranges; lexicographic order specified independently and shown to be a strict total order."
 },
 "C11": {
  "status": "partial",
  "note": "Proved for every length <= 16 and > 16 (abort). The little-endian reader always loads 16 bytes, so it needs 16 readable bytes at the address; without that hypothesis the claim is FALSE (refuted: traps at the very end of memory)."
 },
 "C12": {
  "status": "partial",
  "note": "FALSE in full: digit strings with value >= 2^128+4 and last digit <= 5 parse to a wrapped uint (exact wrong answers proved), and strings of more than 39 digits are rejected even if zero-padded (refuted and characterised). Proved for every other string, ASCII and UTF-8, int and uint."
 },
 "C13": {
  "status": "proved",
  "note": "Canonical decimal text at the output address, exact length, nothing else changed; the canonical text is unique. The hypotheses require room for the longest text (39/40 characters) and an output address >= 1 (>= 4 for utf8), which every reachable address meets."
 },
 "C14": {
  "status": "proved",
  "note": "All four print/parse pairs."
 },
 "C19": {
  "status": "partial",
  "note": "Name validation decides the contract-name grammar, version validation the network's versions, and principal construction returns the specified response and bytes, writing only its result area. Restriction: an 11-byte name must end >= 5 bytes before the end of memory, because the comparison with __transient loads 16 bytes (C19_contract_name_refuted shows it traps otherwise)."
 },
 "C20": {
  "status": "proved",
  "note": "Legal characters are 32..126 and tab, newline, form feed, carriage return."
 },
 "C21": {
  "status": "partial",
  "note": "Encoding, decoding of every accepted input, uniqueness and both inverse laws proved in full against an independent UTF-8 specification. Rejection of ill-formed or too long input is proved when 4*max-len bytes are readable from the input's address; without that the code reads past the end of memory and traps on truncated input (C21_utf8_rejects_refuted)."
 },
 "C22": {
  "status": "proved",
  "note": "For all non-empty names (Clarity names are never empty) and every strictly sorted, non-empty key table in the compiler's layout (the table builder of deserialize.rs is modelled). C22_compare_empty_refuted shows the restriction is needed."
 },
 "C34": {
  "status": "proved",
  "note": "For every sequence of compilation steps whose total demand is below 2^32: each literal reads back at its returned offset/length in the instantiated memory, standard data intact, no overlap, interned literals share. Identifiers must not start with a double quote (the compiler passes Clarity names; C34_quoted_identifier_clash shows why)."
 },
 "C35": {
  "status": "partial",
  "note": "Proved for total demand < 2^32; beyond, the u32 sum wraps and the declared memory is too small (C35_wraps_refuted). Frame space is what create_call_stack_local reserves; that running code stays within it is not part of this claim."
 },
 "C40": {
  "status": "proved",
  "note": "Every payload-free code surfaces as its documented error, composed end to end with the arithmetic aborts; other traps stay engine errors; undocumented codes stop the host. Payload codes 13-15 are covered by C43; short-return payload decoding (7, 9, 10, 12) is a parameter."
 },
 "C43": {
  "status": "partial",
  "note": "Acceptance proved exactly. Reported counts: proved when neither count was interned by an earlier mismatch; FALSE in general (C43_reports_counts_refuted): a later mismatch with the same declared count reports the count of the earlier one."
 },
 "C26": {
  "status": "partial",
  "note": "Proved for every type without trait references, every value, any placement, and any later change of memory outside the two areas written. FALSE for trait references: the writer has no case for them (C26_trait_reference_refuted). Memory below 2 GiB (the offsets are i32). The reader is complete for every representation, trait references included, and representations are unambiguous."
 },
 "C27": {
  "status": "proved",
  "note": "For every value the writer accepts (all types without trait references): exact fixed size, bounded payload, nothing else written; the fixed size equals the bytes of the Wasm words; the bound is reached."
 },
 "C42": {
  "status": "partial",
  "note": "Proved given room above the stack pointer and no trait reference inside a list (other trait references included). Both restrictions are necessary: the declared memory does not count arguments (C42_argument_room_refuted) and lists of trait references cannot be passed (C42_trait_list_refuted)."
 },
 "C36": {
  "status": "partial",
  "note": "Proved for arbitrary module code in which savepoints are opened and closed only by the two call sequences the generator emits (well_bracketed): an err restores the tables exactly, an ok keeps exactly the callee's, read-only calls never change them, any nesting leaves the savepoints balanced. For aborts the code itself restores nothing: proved that the outer savepoints survive underneath those opened since (so the VM can restore them). That the generator emits only well-bracketed code is proved where the expression compiler is modelled, not for every word."
 },
 "C37": {
  "status": "proved",
  "note": "For every history of calls to arbitrary modules (any code, any arguments, memory and globals), VM savepoints and aborts: the tables are explained by legal events, holdings sum to supply, caps and 128-bit range hold, debits are announced; plus the exact result of each operation. The clarity crate's database is modelled as tables (see Ledger.v); at-block is excluded."
 },
 "C38": {
  "status": "proved",
  "note": "Ownership is a function (at most one owner) in the modelled tables; over all histories it changes only by mint/burn/transfer events naming the old or new owner; exact results and error codes of mint, burn and transfer. at-block is excluded."
 },
 "C44": {
  "status": "partial",
  "note": "Proved when the low 64 bits are below 2^63; FALSE for every other maximum below 2^128-2^64 (C44_declared_maximum_refuted)."
 },
 "C45": {
  "status": "partial",
  "note": "as-contract: enter/exit restore both principals when the exit is reached. contract-call?: tx-sender kept; contract-caller is FALSE after every returning call (C45_contract_caller_refuted)."
 },
 "C28": {
  "status": "proved",
  "note": "For every type, any well-formed state of the local allocator and any store; types without unknown parts keep their words exactly, all types keep the represented value. Only the bytes of the value and no local in use change."
 },
 "C29": {
  "status": "proved",
  "note": "Emitted stores read back by the host's reader as the same value; host writes (trait references excluded: the writer fails on them, C26) loaded by emitted code as a representation of the same value."
 },
 "C33": {
  "status": "proved",
  "note": "The emitted comparison, for every type for which it is implemented (trait references are rejected at compile time), any two values and any representations of them: pushes 1 exactly when the values are equal, store untouched, first operand's locals restored. C33_is_eq: the whole is-eq word with any number of operands."
 },
 "C32": {
  "status": "proved",
  "note": "For functions whose body is the and/or/if, with arbitrary well-typed operands and any called functions; a corollary of C46 stated without the evaluator's own and/or/if."
 },
 "C46": {
  "status": "partial",
  "note": "Proved for every well-typed program over the modelled words, including data variables, maps and fungible tokens served by a host that does what a chain specification says (host_ok; C61 discharges it for the modelled host). Unconditional for plain programs (C46_plain_programs_partial, C46_plain_programs_with_host_partial); in general for the inputs where the strict evaluator is defined, i.e. outside the listed divergences, each refuted separately (C47-C49, C57-C60, C64, C02, C03, C05). Well-typed means accepted by the checker in Typing.v, which is narrower than Clarity's (C50). Not modelled here: contract calls, filter, nft and STX words, hashes and buffer conversions, constants."
 },
 "C47": {
  "status": "partial",
  "note": "The full statement is FALSE (two concrete programs); what holds is C46 with thrown expressions that neither abort, return, nor call."
 },
 "C48": {
  "status": "partial",
  "note": "The full statement is FALSE (concrete program); C46 covers the inputs on which no prefix overflows before an effect."
 },
 "C49": {
  "status": "partial",
  "note": "FALSE for u0 only; proved for every other integer of both types (C49_negate_partial)."
 },
 "C50": {
  "status": "partial",
  "note": "FALSE for two programs Clarity accepts; proved for every program of C46 (C50_result_words_partial)."
 },
 "C41": {
  "status": "proved",
  "note": "Round trip, exact acceptance set (decoding succeeds exactly on encodings of valid identifiers), prefix-freeness."
 },
 "C24": {
  "status": "proved",
  "note": "Purity of 72 runtime functions for every argument (also invalid ones) and store, by a proved-sound effect analysis of their code; the printing, hashing and text functions change memory contents only, and C13, C19, C21 (and the hash claims) give the exact area."
 },
 "C25": {
  "status": "partial",
  "note": "Every exported integer function for all operands; buffer, parsing, printing and name functions for all contents inside memory; the hash functions terminate by C15-C18 and check-clarity-name by C55. skip-unknown-value does not always terminate (C25_skip_halts_refuted: 19 bytes on which it recurses for ever). Missing: bsearch on unsorted tables, the utf8 conversions outside memory."
 },
 "C39": {
  "status": "partial",
  "note": "Proved for every word of the three cost tables, every size and every budget below 2^63: exact charge in all five dimensions, nothing else changed, abort with the code of the first exhausted dimension; any sequence of charges stops exactly when the total exceeds the budget. FALSE: budgets from 2^63 abort at once, logarithmic cost at size 0, words missing from the Clarity 1/2 tables, and with_cost_code fails for every contract because the standard library has no cost globals. Which size a word passes is not modelled."
 },
 "C31": {
  "status": "proved",
  "note": "Injectivity and prefix-freedom of SIP-005 bytes (SpecSer.sip005) for all values that exist in Clarity; C31_unique_parse is the streaming form."
 },
 "C30": {
  "status": "proved",
  "note": "serialize.rs is modelled for every type; the code is proved to write exactly the SIP-005 bytes and length; the word to-consensus-buff? yields some/none by the 1048576-byte limit. The tuple-key literals are assumed to be present in memory (C34) and the value's bytes disjoint from the output area."
 },
 "C51": {
  "status": "proved",
  "note": "host functions and their database tables modelled; values without trait references for the reads (see C26)"
 },
 "C52": {
  "status": "proved",
  "note": "the code in between may change the tables in any way but must close what it opens (C36)"
 },
 "C53": {
  "status": "partial",
  "note": "true for map writes only; var-set and token writes are refuted"
 },
 "C15": {
  "status": "proved",
  "note": "stdlib.sha256-buf, for every buffer below 2^29 bytes, every placement of message, output and scratch space; frame included"
 },
 "C16": {
  "status": "proved",
  "note": "stdlib.sha512-buf, for every buffer below 2^29 bytes, every placement of message, output and scratch space; frame included"
 },
 "C17": {
  "status": "proved",
  "note": "stdlib.hash160-buf, for every buffer below 2^29 bytes, every placement of message, output and scratch space; frame included"
 },
 "C18": {
  "status": "proved",
  "note": "the -int entry points, signed and unsigned"
 },
 "C54": {
  "status": "partial",
  "note": "sha256 and sha512 in full; hash160 only when 32 more bytes than it reserves are there, and a trap without them (refutation)"
 },
 "C55": {
  "status": "proved",
  "note": "Full decision, for every byte string in memory."
 },
 "C23": {
  "status": "partial",
  "note": "Every well-formed value of any nesting without lists, unconditionally; values with lists under the hypothesis that the host import skip_list (a call to the clarity crate's deserializer, not modelled) finds the end of each of the value's outermost lists. Malformed input: refusal proved for unknown prefixes, truncated integers and bad or truncated ASCII strings; the general claim is false and refuted five times (some-of-nothing, names past the end, wrapping buffer lengths, version 32, __transient)."
 },
 "C56": {
  "status": "partial",
  "note": "Completeness and round trip (C56_reads, C56_round_trip) are proved for every type and every readable input, with the exact memory footprint. Refusal: proved for every input at types without tuples and utf8 strings (C56_refuses_partial), and for every tuple input (also inside optionals and responses) whose items are well formed but with a key of the type missing or repeated (C56_refuses_miskeyed). Refusal of tuples with malformed items and of malformed utf8 is not proved, since the library functions called there are wrong on malformed input (C21, C23). The claim that only Clarity principals are accepted is FALSE (C56_principals_refuted)."
 },
 "C57": {
  "status": "partial",
  "note": "False as stated: the overflow flag of the left position is overwritten by that of the right one, so a left position >= 2^32 is truncated (C57_large_left_end_refuted: (slice? \"abc\" u18446744073709551616 u1) returns (some \"a\")). C57_slice_partial proves the claim for every sequence, every element type and every operand expression whenever the left position is below 2^32 or the right one exceeds the length."
 },
 "C58": {
  "status": "partial",
  "note": "False as stated for an empty replacement in a buffer or string: the word aborts before looking at the position (C58_empty_replacement_refuted), also out of range; in range this is the documented error (C58_empty_replacement_aborts). C58_replace_at_partial proves the claim for every other replacement, every sequence, position and operand expression."
 },
 "C59": {
  "status": "partial",
  "note": "False as stated on an empty sequence: the second operand is not evaluated at all, so its abort is lost (C59_empty_sequence_refuted). C59_index_of_partial proves both directions of the claim for every non-empty sequence, and for empty ones when the second operand has no effects."
 },
 "C60": {
  "status": "partial",
  "note": "False as stated for accumulators held in memory: the value returned by the called function lives in its freed call frame and is overwritten by the next call (C60_in_memory_accumulator_refuted). C60_fold_user_function_partial proves the claim for every user function and every accumulator type not held in memory, and the compiler theorem C46 covers fold of native words; C60_fold_sum is an instance with a closed form."
 },
 "C61": {
  "status": "partial",
  "note": "Proved for every well-typed program over the modelled words and every state of the tables: unconditional for plain programs from tables that hold values of their declared types (C61_plain_programs_partial), in general for the runs where the strict evaluator is defined (C61_programs_act_on_tables_partial), with C61_words_do_what_clarity_says giving the meaning of each word on the tables. Inside at-block nothing is said (see C52); nft, STX and contract-call words are not in the compiler model."
 },
 "C62": {
  "status": "partial",
  "note": "Proved for every well-typed program: at every call site of the reference evaluator (C62_calls_keep_or_restore_tables), including the calls made by fold and map, and end to end for the compiled function whose body is the call: C62_compiled_calls_partial (where the strict evaluator is defined) and, without a condition on the evaluator, C62_failed_calls_leave_no_trace_partial for plain programs. A call nested inside a larger body is covered by combining C62_calls_keep_or_restore_tables with C61. Partial because of the divergences elsewhere in the language (see C46)."
 },
 "C63": {
  "status": "partial",
  "note": "False of the code: leaving as-contract early skips exit_as_contract, so the contract stays the sender and the caller for the rest of the transaction (C63_sender_restored_refuted, on a compiled program linked to the modelled host). Proved otherwise: Clarity's evaluator changes nothing but tables and memory budget (C63_evaluation_changes_only_tables); so does the compiled program when nothing leaves as-contract early (C63_compiled_changes_only_tables_partial, C63_plain_programs_restore_sender_partial)."
 },
 "C64": {
  "status": "partial",
  "note": "False for a list built in place and a function of the contract: the generator's workaround relabels the first sequence with as many elements as an element has bytes, so too little space is reserved and the results overwrite the elements not yet read (C64_list_literal_refuted; the relabelling is modelled by map_src on the expressions that reserve their own space). Proved for every other case over the modelled words, any kind and number of sequences: C64_map_user_function_partial, C64_map_sum (native word, closed form), and the general compiler theorem C46. Results with parts in memory are left out (each iteration moves the stack pointer past the frame)."
 },
 "C65": {
  "status": "partial",
  "note": "Proved (C65_filter_partial) for every function whose body is (filter g x), x a parameter of any sequence type and any length but zero, g a function of the program of any kind: exactly the accepted elements, in order, in memory the caller can read, memory below the stack pointer unchanged, or the abort of the first call that aborts. False for the empty sequence: the loop is entered before the length is tested and its counter wraps, so the discriminator is called on memory past the sequence until the end of memory is reached (C65_empty_sequence_refuted). With the word not as discriminator: C65_filter_not_partial, every non-empty list of booleans gives its false elements. Missing: other native words as discriminator (is-standard), filter nested in other expressions (the emitted code relies on a local being zero on entry of the function, which the induction of LangMain does not carry)."
 },
 "C66": {
  "status": "partial",
  "note": "False as stated of the code: the success results of the three NFT operations carry the boolean 132 (linker.rs writes 132 for 1i32). Proved for all arguments and states: what the host reads back is (ok true), (err u1), (err u2) or (err u3); refusals are represented as the error; but (C66_success_words_refuted) success words are those of no value, and (C66_is_eq_refuted) the compiled comparison answers false against every value. C66_ex runs the compiled contract: the token is minted and is-eq says false."
 },
 "C67": {
  "status": "partial",
  "note": "Proved: whatever the expression, the value its code leaves on the stack is the one recorded (C67_definition_records_value); literals likewise; a function returning the constant returns words of the recorded value, with the host state, the globals and the memory outside its frame unchanged, whenever the type of the value itself lays out every component that another one follows in as many bytes as the declared type (C67_use_returns_value_partial), which holds for all types without optionals and responses, optionals and ok values of those, and err values whose ok type takes 4 bytes (C67_fitting_constants). The claim in full is false of the code: load_constant writes the value with the value's own type and the generated code reads it with the declared one, so (err 1) declared (response uint int) reads back as (err 0) and {a: none, b: u5} as {a: none, b: u0} (C67_read_back_refuted). Trait references are excluded (C42)."
 },
 "C68": {
  "status": "partial",
  "note": "Proved for functions whose body is an at-block expression: its meaning (value of the body on the tables of that block, present restored) and that the compiled function does that when neither expression contains a word that leaves the function. False otherwise: after try!/unwrap!/asserts! inside at-block the compiled code goes on in the past (refuted in general and for a concrete contract). Not modelled: at-block nested inside larger expressions, cost charging."
 },
 "C69": {
  "status": "proved",
  "note": "For every module and state of the chain. The clarity crate's STX balances (STXBalance, STXBalanceSnapshot), which are not in /repo, are modelled as accounts with a free and a locked amount; that model is part of the trusted base. Savepoints around STX (contract calls rolled back) enter the history theorem as imports that do a history of events. A failure (trap, whole transaction) happens only when the memory budget or the per-transaction totals give out."
 },
 "C70": {
  "status": "partial",
  "note": "Proved for static calls as the body of a function, for arguments whose own types have the layout of the callee's parameter types (C70_compiled_call_partial), with the callee an arbitrary state transformer; C70_meaning_of_contract_call spells out what the reference semantics is. Refuted and characterised otherwise: an argument such as none is laid out by its own type, so the next argument is read from the wrong place (C70_argument_after_none_refuted); the space of the arguments is missing from what the generator requests (C70_argument_space_not_requested_refuted); the caller's contract-caller stays the callee's (C70_reference_differs_in_the_caller, see C45). Not modelled: dynamic calls through a trait, calls nested in other expressions."
 },
 "C71": {
  "status": "proved",
  "note": "For the word as the body of a function, with any height expression of the modelled language; the chain's database, which is not in /repo, is an arbitrary function of the query, the height and the block looked from (so it cannot depend on what contracts do), giving values of the property's type. C71_meaning_of_block_info spells out the reference semantics, C71_compiled_block_info says the compiled function does just that, C71_no_future that nothing of the present or later is answered, C71_properties_are_wired that each property of each word reaches the query meant."
 },
 "C72": {
  "status": "partial",
  "note": "Proved for every program of statements (sequences, let, if, nested prints) around the expressions of the compiler model, every value type including traits and NoType, any chain state and host: the compiled function gives the evaluator's result and chain state, with the events registered in order. The part about requested memory is false of the code and refuted: print reserves only the bytes of the value and writes its 8-byte representation there. Parsing the type text is a parameter (the parser is in another crate): the texts of a module are assumed to parse to the serialized types. Cost charges are left out."
 },
 "C73": {
  "status": "partial",
  "note": "False for an 11-byte name that ends less than 5 bytes before the end of memory (C73_name_at_the_end_refuted); with 5 spare bytes proved for all principals, parts, operand expressions, sequences with let and if, layouts and stack positions (C73_compiled_principals), with the round trip both ways and the reasons of every error. Contract names longer than 40 bytes, which principal-destruct? cannot type, are outside."
 },
 "C74": {
  "status": "partial",
  "note": "Proved for every program of expressions, these four words, let and if, against a specification that prints with its own digit function (shown to be the only canonical notation). The full claim is false: C74_wraps_refuted (39-digit strings above 2^128), C74_empty_string_refuted (empty string at the end of memory), and long zero-padded strings (C12); the compiled theorem excludes exactly these. Cost charges are not modelled."
 },
 "C75": {
  "status": "proved",
  "note": "The curve arithmetic and the address computation are parameters: the theorems hold for all functions that give 33-byte keys and standard principals. Cost charges are left out."
 },
 "C76": {
  "status": "proved",
  "note": "The cost charge (the length of the input is kept in a local for it) is left out, as everywhere in the compiler model; the two hash functions themselves are parameters."
 }
}