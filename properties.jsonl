{"id": "C01", "title": "Integer addition is exact or aborts with overflow", "statement": "Calling the runtime's signed (+ on int) or unsigned (+ on uint) addition on two 128-bit Clarity integers returns their exact mathematical sum when it is representable in the type, and otherwise aborts with the overflow error; nothing else (memory, other globals) changes.", "quantifier": "all pairs of 128-bit signed / unsigned integers, all machine stores, all modules containing the standard library", "why_tests_cant": "2^256 operand pairs; the carry/overflow logic is split over two 64-bit limbs so failures can hide on sparse boundary sets", "anchors": ["clar2wasm/src/standard/standard.wat: stdlib.add-int128, stdlib.add-int, stdlib.add-uint, stdlib.runtime-error"]}
{"id": "C02", "title": "Integer subtraction is exact or aborts with underflow", "statement": "Signed and unsigned subtraction return the exact difference when representable, and otherwise abort with the underflow error. (Found to be FALSE for unsigned subtraction when the high limb of the subtrahend is 2^64-1 and the low limb borrows: the exact set of wrong inputs is characterised.)", "quantifier": "all pairs of 128-bit signed / unsigned integers", "why_tests_cant": "the set of wrong inputs has density about 2^-65 of the operand pairs: random tests will never hit it", "anchors": ["clar2wasm/src/standard/standard.wat: stdlib.sub-int128, stdlib.sub-int, stdlib.sub-uint"]}
{"id": "C03", "title": "Integer multiplication is exact or aborts with overflow", "statement": "Signed and unsigned multiplication return the exact product when representable, otherwise abort with overflow. (FALSE for signed products equal to -2^127 with neither factor 1, which abort; exact set characterised.)", "quantifier": "all pairs of 128-bit signed / unsigned integers", "why_tests_cant": "Hacker's-Delight limb multiplication with a leading-zero heuristic; correctness on 2^256 pairs", "anchors": ["clar2wasm/src/standard/standard.wat: stdlib.mul-int128, stdlib.mul-uint, stdlib.mul-int, clz-int128"]}
{"id": "C04", "title": "Division and remainder truncate toward zero and reject a zero divisor", "statement": "Unsigned/signed division and mod return the truncated quotient / remainder with the sign of the dividend; a zero divisor aborts with the division-by-zero error; MIN / -1 aborts with overflow.", "quantifier": "all pairs of 128-bit integers", "why_tests_cant": "a 128-iteration long-division loop over 64-bit limbs; needs a loop invariant, not samples", "anchors": ["clar2wasm/src/standard/standard.wat: stdlib.div-int128, stdlib.div-uint, stdlib.div-int, stdlib.mod-uint, stdlib.mod-int"]}
{"id": "C05", "title": "Exponentiation is exact or aborts", "statement": "pow on int/uint returns base^exponent exactly when representable, and aborts with an arithmetic/overflow error otherwise. (FALSE for base -1 with exponent above 127, which aborts although the result is +-1.)", "quantifier": "all base/exponent pairs", "why_tests_cant": "square-and-multiply loop over unbounded exponents", "anchors": ["clar2wasm/src/standard/standard.wat: stdlib.pow-uint, stdlib.pow-int, pow-inner"]}
{"id": "C06", "title": "log2 and sqrti are exact floors", "statement": "log2 returns floor(log2 n) for n>0 and aborts for n<=0; sqrti returns floor(sqrt n) for n>=0 and aborts for n<0.", "quantifier": "all 128-bit integers", "why_tests_cant": "sqrti is an iterative bit-by-bit loop; every perfect-square boundary matters", "anchors": ["clar2wasm/src/standard/standard.wat: stdlib.log2-uint, stdlib.log2-int, stdlib.sqrti-uint, stdlib.sqrti-int, log2"]}
{"id": "C07", "title": "Integer comparisons decide the mathematical order", "statement": "<, <=, >, >= on int and uint return true exactly when the mathematical relation holds.", "quantifier": "all pairs of 128-bit integers", "why_tests_cant": "limb-wise comparison with mixed signedness; needs all pairs", "anchors": ["clar2wasm/src/standard/standard.wat: stdlib.lt-uint, stdlib.gt-uint, stdlib.le-uint, stdlib.ge-uint, stdlib.lt-int, stdlib.gt-int, stdlib.le-int, stdlib.ge-int"]}
{"id": "C08", "title": "Buffer and string comparisons are lexicographic", "statement": "<, <=, >, >= on two byte sequences anywhere in memory decide the lexicographic (prefix-first) byte order and read nothing outside the two sequences.", "quantifier": "all lengths, contents and placements (including overlapping) of two byte sequences in memory", "why_tests_cant": "unbounded lengths and placements", "anchors": ["clar2wasm/src/standard/standard.wat: stdlib.lt-buff, stdlib.gt-buff, stdlib.le-buff, stdlib.ge-buff"]}
{"id": "C09", "title": "Bitwise operators and shifts act on the 128-bit two's-complement representation", "statement": "bit-and/or/xor/not return the bitwise result on the 128-bit representation; bit-shift-left by s is multiplication by 2^(s mod 128) modulo 2^128; bit-shift-right is floor division by 2^(s mod 128), logical on uint and arithmetic on int.", "quantifier": "all operands and all 64-bit shift amounts", "why_tests_cant": "limb-crossing shifts with amount 0, 63, 64, 127 boundaries on all values", "anchors": ["clar2wasm/src/standard/standard.wat: stdlib.bit-and, stdlib.bit-or, stdlib.bit-xor, stdlib.bit-not, stdlib.bit-shift-left, stdlib.bit-shift-right-uint, stdlib.bit-shift-right-int"]}
{"id": "C10", "title": "to-int / to-uint are the identity or abort", "statement": "to-uint aborts exactly on negative ints and to-int aborts exactly on uints >= 2^127; otherwise the number is unchanged.", "quantifier": "all 128-bit integers", "why_tests_cant": "total over the type", "anchors": ["clar2wasm/src/standard/standard.wat: stdlib.to-uint, stdlib.to-int"]}
{"id": "C11", "title": "Buffers convert to integers by their big-/little-endian value", "statement": "buff-to-(u)int-be/le return the integer whose big-/little-endian bytes are the buffer, for every length <= 16, abort for longer buffers, and leave memory unchanged.", "quantifier": "all buffers of length 0..16 at all addresses the module can place them; all over-long lengths", "why_tests_cant": "masking trick over unaligned 8-byte loads; every length/content/address", "anchors": ["clar2wasm/src/standard/standard.wat: stdlib.buff-to-uint-be, stdlib.buff-to-uint-le"]}
{"id": "C12", "title": "Decimal strings parse to the integer they denote, or none", "statement": "string-to-int?/string-to-uint? (ASCII and UTF-8) return some n exactly for the strings denoting an in-range integer n and none for every other string. (FALSE for uint: some 39-digit strings out of range parse to a wrapped number.)", "quantifier": "all byte strings, all lengths", "why_tests_cant": "overflow detection in the last digits: wrong inputs are a vanishing fraction of the strings", "anchors": ["clar2wasm/src/standard/standard.wat: stdlib.string-to-uint, stdlib.string-to-int, stdlib.utf8-to-uint, stdlib.utf8-to-int"]}
{"id": "C13", "title": "Integers print as their canonical decimal string", "statement": "int-to-ascii / int-to-utf8 on int/uint produce the canonical decimal digits (no leading zeros, '-' for negatives), the UTF-8 variants as 4-byte big-endian scalars, and the reported length is that of the text.", "quantifier": "all 128-bit integers, all stores with room at the stack pointer", "why_tests_cant": "loop per digit with in-place reversal", "anchors": ["clar2wasm/src/standard/standard.wat: stdlib.uint-to-string, stdlib.int-to-string, stdlib.uint-to-utf8, stdlib.int-to-utf8"]}
{"id": "C14", "title": "Printing then parsing an integer is the identity", "statement": "Parsing the text that int-to-ascii/int-to-utf8 produced returns some of the original integer.", "quantifier": "all 128-bit integers", "why_tests_cant": "composition of two loops over all values", "anchors": ["clar2wasm/src/standard/standard.wat: stdlib.uint-to-string, stdlib.string-to-uint, stdlib.int-to-string, stdlib.string-to-int"]}
{"id": "C15", "title": "sha256 equals FIPS 180-4 SHA-256", "statement": "The runtime's sha256 on any byte buffer in memory leaves at the output address exactly the FIPS 180-4 digest of the buffer's bytes.", "quantifier": "all buffer lengths and contents", "why_tests_cant": "unbounded message length, padding boundaries", "anchors": ["clar2wasm/src/standard/standard.wat: stdlib.sha256-buf, extend-data, block64, working-vars"]}
{"id": "C16", "title": "sha512 equals FIPS 180-4 SHA-512", "statement": "The runtime's sha512 on any byte buffer leaves the FIPS 180-4 digest at the output address.", "quantifier": "all buffer lengths and contents", "why_tests_cant": "unbounded message length, padding boundaries", "anchors": ["clar2wasm/src/standard/standard.wat: stdlib.sha512-buf, pad-sha512-data, process-sha512-block"]}
{"id": "C17", "title": "hash160 equals RIPEMD-160 of SHA-256", "statement": "hash160 on any byte buffer leaves RIPEMD160(SHA256(buffer)) at the output address.", "quantifier": "all buffer lengths and contents", "why_tests_cant": "unbounded message length", "anchors": ["clar2wasm/src/standard/standard.wat: stdlib.hash160-buf, hash160-pad, hash160-compress, hash160-f1..f5"]}
{"id": "C18", "title": "Hashing an integer hashes its 16 little-endian bytes", "statement": "sha256/sha512/hash160 on int/uint equal the digest of the 16-byte little-endian two's-complement encoding.", "quantifier": "all 128-bit integers", "why_tests_cant": "2^128 inputs", "anchors": ["clar2wasm/src/standard/standard.wat: stdlib.sha256-int, stdlib.sha512-int, stdlib.hash160-int"]}
{"id": "C19", "title": "Principal construction and name validation follow the SIP-005 grammar", "statement": "Contract-name and version validation accept exactly the names/versions of the grammar, and principal construction returns ok / the documented error code accordingly.", "quantifier": "all byte strings, versions and network flags", "why_tests_cant": "unbounded strings; control flow with several error classes", "anchors": ["clar2wasm/src/standard/standard.wat: stdlib.principal-construct, stdlib.is-valid-contract-name, stdlib.is-alpha, stdlib.is-valid-char, stdlib.is-version-valid"]}
{"id": "C20", "title": "ASCII string validation accepts exactly ASCII", "statement": "is-valid-string-ascii returns true exactly when every byte of the buffer is a legal Clarity ASCII character code (printable 32..126, tab, newline, form feed or carriage return).", "quantifier": "all buffers, lengths and placements", "why_tests_cant": "SIMD blocks of 16 plus a tail: every length mod 16 and position", "anchors": ["clar2wasm/src/standard/standard.wat: stdlib.is-valid-string-ascii"]}
{"id": "C21", "title": "UTF-8 conversions implement Unicode", "statement": "convert-scalars-to-utf8 emits the UTF-8 encoding of the scalar sequence; utf8-to-string-utf8 accepts exactly well-formed UTF-8 of at most the declared number of characters and yields its scalars; the two are inverse.", "quantifier": "all scalar sequences / byte strings", "why_tests_cant": "unbounded strings; surrogates, overlong and truncated forms", "anchors": ["clar2wasm/src/standard/standard.wat: stdlib.convert-scalars-to-utf8, stdlib.utf8-to-string-utf8"]}
{"id": "C22", "title": "Clarity-name comparison and binary search are correct", "statement": "compare-clarity-names decides equality/order of two names, and bsearch-clarity-name on any sorted key table finds a key iff it is present.", "quantifier": "all names, all sorted tables of any size", "why_tests_cant": "unbounded tables", "anchors": ["clar2wasm/src/standard/standard.wat: stdlib.compare-clarity-names, stdlib.bsearch-clarity-name, stdlib.check-clarity-name"]}
{"id": "C23", "title": "Skipping an unknown serialized value consumes exactly that value", "statement": "skip-unknown-value at a well-formed serialized value returns the offset just past it; on malformed input it returns the failure marker and never moves outside the buffer. (The second half is FALSE: several counterexamples.)", "quantifier": "all serialized values of any nesting; all byte strings", "why_tests_cant": "unbounded nesting; malformed encodings with wrapping lengths", "anchors": ["clar2wasm/src/standard/standard.wat: stdlib.skip-unknown-value, skip-*"]}
{"id": "C24", "title": "Pure runtime functions have no side effects", "statement": "Arithmetic, comparison, bitwise, parsing and validation runtime functions leave memory, globals and host state exactly as they found them; printing and hashing functions only write inside their documented output/scratch area.", "quantifier": "all arguments and stores", "why_tests_cant": "absence of effects over the whole memory cannot be sampled", "anchors": ["clar2wasm/src/standard/standard.wat"]}
{"id": "C25", "title": "Runtime functions always terminate", "statement": "Each runtime-library function above terminates (returns or aborts) for every argument, in a number of steps not dependent on an oracle.", "quantifier": "all arguments and stores", "why_tests_cant": "termination is a property of all executions", "anchors": ["clar2wasm/src/standard/standard.wat"]}
{"id": "C26", "title": "Host value codec round-trips", "statement": "Any Clarity value the host writes into module memory for a type is read back equal by the host reader for that type, wherever it was placed.", "quantifier": "all types, all values of the type, all addresses and memory contents", "why_tests_cant": "unbounded nesting of types and values", "anchors": ["clar2wasm/src/wasm_utils.rs: write_to_wasm, read_from_wasm, read_from_wasm_indirect"]}
{"id": "C27", "title": "Sizes computed for values are the sizes written", "statement": "The host writer reports exactly the fixed representation size of the type, plus in-memory bytes bounded by the declared maximum size; nothing outside the two reserved ranges is written.", "quantifier": "all types and values", "why_tests_cant": "unbounded nesting; buffer overruns are absence properties", "anchors": ["clar2wasm/src/wasm_utils.rs: get_type_size, get_type_in_memory_size, write_to_wasm"]}
{"id": "C28", "title": "Generated memory writes are read back by generated reads", "statement": "The code emitted to store a value of a type followed by the code emitted to load it leaves the same stack values, for every type (the word standing for a part of unknown type, which holds no value, becomes 0); it changes no other memory and no local in use.", "quantifier": "all types (any nesting), all stack values, all offsets", "why_tests_cant": "the code is generated from the type: infinitely many programs", "anchors": ["clar2wasm/src/wasm_generator.rs: write_to_memory, read_from_memory"]}
{"id": "C29", "title": "Generated code and the host agree on the memory layout", "statement": "A value stored by generated code is read by the host as the same Clarity value, and vice versa.", "quantifier": "all types and values", "why_tests_cant": "infinitely many generated programs", "anchors": ["clar2wasm/src/wasm_generator.rs: write_to_memory, read_from_memory", "clar2wasm/src/wasm_utils.rs: read_from_wasm, write_to_wasm"]}
{"id": "C30", "title": "to-consensus-buff? emits the canonical SIP-005 bytes", "statement": "The emitted serialization code for a type writes exactly the SIP-005 encoding of the value and returns its length.", "quantifier": "all types and values", "why_tests_cant": "infinitely many generated programs and values", "anchors": ["clar2wasm/src/serialize.rs"]}
{"id": "C31", "title": "Consensus serialization is injective and prefix-free", "statement": "Two Clarity values with the same SIP-005 bytes are equal, and no encoding is a proper prefix of another.", "quantifier": "all values", "why_tests_cant": "needs induction over values", "anchors": ["clar2wasm/src/serialize.rs", "clar2wasm/src/deserialize.rs"]}
{"id": "C32", "title": "Short-circuit and conditional forms evaluate like Clarity", "statement": "and/or stop at the first deciding operand, if evaluates exactly one branch.", "quantifier": "all operand lists and all emitted sub-programs", "why_tests_cant": "control-flow over arbitrary generated operands", "anchors": ["clar2wasm/src/words/logical.rs", "clar2wasm/src/words/conditionals.rs"]}
{"id": "C33", "title": "is-eq decides structural equality", "statement": "The code emitted for is-eq on operands of any type returns true exactly when the two values are equal.", "quantifier": "all types and values", "why_tests_cant": "infinitely many generated programs", "anchors": ["clar2wasm/src/words/equal.rs"]}
{"id": "C34", "title": "Interned literals never overlap and keep their bytes", "statement": "Every literal added to the module's data segment can be read back at the offset returned, forever; equal literals share an offset; distinct literals never overlap each other or the standard data.", "quantifier": "all sequences of literal insertions", "why_tests_cant": "all histories of insertions", "anchors": ["clar2wasm/src/wasm_generator.rs: add_clarity_string_literal, add_string_literal, add_bytes_literal, add_literal"]}
{"id": "C35", "title": "The module declares enough memory pages", "statement": "The declared number of pages covers literals, frame and workspace for every size, and is the least such number. (FALSE when the total exceeds 2^32: the sum wraps.)", "quantifier": "all sizes", "why_tests_cant": "boundary at each 64KiB multiple", "anchors": ["clar2wasm/src/wasm_generator.rs: set_memory_pages"]}
{"id": "C36", "title": "Failed public calls have no effect on chain state", "statement": "A public function call that returns an err or aborts leaves the data store as it was before; one that returns ok keeps all its writes, with arbitrary nesting.", "quantifier": "all nestings of begin/commit/rollback and all writes in between", "why_tests_cant": "all histories", "anchors": ["clar2wasm/src/linker.rs: begin_public_call, commit_call, roll_back_call", "clar2wasm/src/wasm_generator.rs: local_call_public"]}
{"id": "C37", "title": "Fungible-token operations conserve supply", "statement": "After any history of mint/burn/transfer, the total supply equals the sum of balances, never exceeds the declared maximum and balances never go negative.", "quantifier": "all operation histories, all amounts", "why_tests_cant": "all histories", "anchors": ["clar2wasm/src/linker.rs: link_mint_ft_fn, link_burn_ft_fn, link_transfer_ft_fn"]}
{"id": "C38", "title": "Non-fungible tokens have at most one owner", "statement": "After any history of mint/burn/transfer each asset has at most one owner, mint fails on an owned asset, transfer fails unless the sender owns it.", "quantifier": "all operation histories", "why_tests_cant": "all histories", "anchors": ["clar2wasm/src/linker.rs: link_mint_nft_fn, link_burn_nft_fn, link_transfer_nft_fn"]}
{"id": "C39", "title": "Cost metering charges the declared cost and stops at the budget", "statement": "The emitted metering code subtracts exactly the declared constant/linear/n-log-n cost and aborts as soon as the cumulative cost exceeds the budget. Cost code can be requested for every contract, and every word of a Clarity version has a price. (FALSE in part: logarithmic cost at n = 0, budgets >= 2^63, words without a table entry, and requesting cost code fails for every contract.)", "quantifier": "all cost functions, input sizes and budgets", "why_tests_cant": "64-bit wraparound corner cases", "anchors": ["clar2wasm/src/cost.rs"]}
{"id": "C40", "title": "Runtime error codes map to the right Clarity error", "statement": "Each error code the runtime can raise is mapped to its documented Clarity error, traps that are not runtime errors are never reported as Clarity errors, and a code that is not documented is never mapped to some Clarity error.", "quantifier": "all 32-bit codes", "why_tests_cant": "total over codes", "anchors": ["clar2wasm/src/error_mapping.rs"]}
{"id": "C41", "title": "Trait identifiers survive their byte encoding", "statement": "Decoding the byte encoding of a trait identifier returns the same identifier; malformed bytes are rejected.", "quantifier": "all identifiers / byte strings", "why_tests_cant": "all strings", "anchors": ["clar2wasm/src/wasm_utils.rs: trait_identifier_as_bytes, trait_identifier_from_bytes"]}
{"id": "C42", "title": "Passing arguments and returning values preserves them", "statement": "A value passed to a function by the host and returned unchanged is reconstructed equal by the host.", "quantifier": "all types and values", "why_tests_cant": "unbounded nesting", "anchors": ["clar2wasm/src/wasm_utils.rs: pass_argument_to_wasm, wasm_to_clarity_value, reserve_space_for_return"]}
{"id": "C43", "title": "Argument-count checks accept exactly the declared arities", "statement": "check_argument_count accepts a call exactly when the number of arguments satisfies the declared bound, and reports the offending counts otherwise. (The reporting half is FALSE when an earlier mismatch of the same contract already used one of the counts.)", "quantifier": "all counts", "why_tests_cant": "total", "anchors": ["clar2wasm/src/wasm_utils.rs: check_argument_count"]}
{"id": "C44", "title": "A fungible token keeps the maximum supply it was declared with", "statement": "define-fungible-token with a maximum records exactly that maximum, with an initial supply of zero. (FALSE for maxima whose low 64 bits are >= 2^63: the recorded maximum is then at least 2^128 - 2^64.)", "quantifier": "all token names, all 128-bit maxima", "why_tests_cant": "sign extension of one half of a 128-bit number; tests use small caps", "anchors": ["clar2wasm/src/linker.rs: link_define_ft_fn"]}
{"id": "C45", "title": "tx-sender and contract-caller are restored", "statement": "as-contract and contract-call? leave tx-sender and contract-caller of the calling code unchanged once they finish. (FALSE for contract-caller after contract-call?: it becomes the contract itself.)", "quantifier": "all contexts, nestings and callees", "why_tests_cant": "needs arbitrary callees and nestings", "anchors": ["clar2wasm/src/linker.rs: link_enter_as_contract_fn, link_exit_as_contract_fn, link_contract_call_fn", "clar2wasm/src/initialize.rs: push_sender, pop_sender, push_caller, pop_caller"]}
{"id": "C46", "title": "Compiled programs compute what Clarity's evaluator says", "statement": "Calling a function of a compiled program, with arguments of the declared types laid out in memory in any valid way, returns the value (or aborts with the error code) that a reference evaluator for the language computes from the same arguments and chain state; it changes no global and no byte below the stack pointer, and ends. (FALSE for asserts!, variadic arithmetic, (- u0), and where the library's arithmetic is wrong: C47-C49, C02, C03, C05.)", "quantifier": "all well-typed programs over the modelled words (literals, variables, let, begin, if, and/or, is-eq, optionals, responses, match, unwraps, try!, asserts!, tuples, lists, concat, append, as-max-len?, len, element-at?, arithmetic, comparison, bitwise words, user function calls), all functions, arguments and stores", "why_tests_cant": "compiler correctness quantifies over programs, not runs; tests sample programs", "anchors": ["clar2wasm/src/wasm_generator.rs: traverse_expr, traverse_define_function, traverse_call_user_defined, copy_value", "clar2wasm/src/words/*.rs"]}
{"id": "C47", "title": "asserts! evaluates its thrown expression only when the predicate is false", "statement": "When the predicate of asserts! holds, the thrown expression has no effect: it neither aborts, returns, nor changes state. (FALSE: it is always evaluated.)", "quantifier": "all predicates and thrown expressions", "why_tests_cant": "needs a thrown expression with an effect and a true predicate", "anchors": ["clar2wasm/src/words/conditionals.rs: Asserts"]}
{"id": "C48", "title": "Arithmetic words evaluate all operands before computing", "statement": "An early return or error in an operand of +, -, *, / takes precedence over an overflow of the operands before it. (FALSE: operands are combined pairwise as soon as two are available.)", "quantifier": "all operand lists", "why_tests_cant": "needs an overflow in a prefix and an effect in a later operand", "anchors": ["clar2wasm/src/words/arithmetic.rs: Add, Sub, Mul, Div"]}
{"id": "C49", "title": "Negation aborts only when the opposite is not of the type", "statement": "(- x) is -x when -x is of the type, and aborts otherwise. (FALSE for (- u0), which aborts.)", "quantifier": "all integers of both types", "why_tests_cant": "one wrong input out of 2^129", "anchors": ["clar2wasm/src/words/arithmetic.rs: Sub"]}
{"id": "C50", "title": "Compiled functions return words of the result type", "statement": "The words left by a call have the WebAssembly types of the function's result type. (FALSE for try! on an optional in a function returning a different optional, and for a variable bound to a bare none used at a wider type.)", "quantifier": "all programs the type checker accepts", "why_tests_cant": "type soundness of generated code; only a validator sees the mismatch", "anchors": ["clar2wasm/src/words/conditionals.rs: ShortReturnable", "clar2wasm/src/wasm_generator.rs: visit_atom"]}
{"id": "C51", "title": "Data variables and maps keep the last value written", "statement": "var-set and map-set make the variable or entry the given value, map-insert does so exactly when the key has no entry and returns whether it did, map-delete removes the entry and returns whether there was one; no other key, variable, token or event changes; var-get and map-get? leave the current value in memory, changing nothing else of the chain.", "quantifier": "all stores, names, key and value types, keys and values", "why_tests_cant": "quantifies over all values of all types and all store contents", "anchors": ["clar2wasm/src/linker.rs: link_get_variable_fn, link_set_variable_fn, link_map_get_fn, link_map_set_fn, link_map_insert_fn, link_map_delete_fn"]}
{"id": "C52", "title": "at-block reads the past and leaves no trace", "statement": "Between entering and leaving at-block, reads see the tables of the given block; after leaving, the tables, savepoints and the block being read are what they were before, whatever was written in between. An unknown block aborts.", "quantifier": "all states, blocks and intermediate code", "why_tests_cant": "arbitrary code between the two calls", "anchors": ["clar2wasm/src/linker.rs: link_enter_at_block_fn, link_exit_at_block_fn"]}
{"id": "C53", "title": "Read-only contexts refuse writes", "statement": "In a read-only context every host function that would change chain state refuses and changes nothing. (FALSE for var-set and the token functions; map writes are refused.)", "quantifier": "all states and arguments", "why_tests_cant": "needs every host function in every read-only state", "anchors": ["clar2wasm/src/linker.rs: link_map_set_fn, link_map_insert_fn, link_map_delete_fn, link_set_variable_fn, link_nft_mint_fn"]}
{"id": "C54", "title": "Hash expressions always have room and yield the digest", "statement": "Wherever a contract evaluates (sha256 x), (sha512 x) or (hash160 x) on a buffer or an integer, the compiled code leaves the digest of x in a fresh area of the call stack, changes nothing below the stack pointer, and never runs out of memory, whatever else the contract reserves. (FALSE for hash160: it asks for 32 bytes less scratch space than it uses and can trap.)", "quantifier": "all contracts' memory layouts, all arguments and stack pointers", "why_tests_cant": "the failing layouts are those within 32 bytes of a page boundary", "anchors": ["clar2wasm/src/words/hashing.rs: traverse_hash, Hash160, Sha256, Sha512", "clar2wasm/src/wasm_generator.rs: ensure_work_space, set_memory_pages, create_call_stack_local"]}
{"id": "C55", "title": "The name checker decides Clarity's grammar of names", "statement": "check-clarity-name answers 1 exactly on the byte strings that are Clarity names ([a-zA-Z][a-zA-Z0-9-_!?+<>=/*]* or one of - + = / * < > <= >=, at most 128 characters) and 0 on every other byte string, without changing anything.", "quantifier": "every byte string of every length, every address and store", "why_tests_cant": "unbounded strings; the code uses bit-mask tricks whose errors show on single characters", "anchors": ["clar2wasm/src/standard/standard.wat: stdlib.check-clarity-name"]}
{"id": "C56", "title": "from-consensus-buff? inverts the consensus encoding and refuses everything else", "statement": "(from-consensus-buff? T b) evaluates to (some v) when the whole of b is an encoding of a value v of type T - the canonical SIP-005 bytes, or for tuples the same items in any order with unknown well-formed items dropped - and to none otherwise; it consumes exactly the buffer, writes only to its own reservation on the call stack, never traps, and what it accepts is a Clarity value (contract names and version bytes are validated).", "quantifier": "every type T, every buffer content and length, every position of the buffer in memory, every value nested to any depth, every order of tuple items", "why_tests_cant": "the inputs are arbitrary byte strings and types nest without bound; a test decodes a handful of encodings, while a misread length, a bit set twice or an offset not advanced shows only for particular combinations of items", "anchors": ["clar2wasm/src/deserialize.rs: deserialize_from_memory, deserialize_integer, deserialize_principal, deserialize_bool, deserialize_optional, deserialize_response, deserialize_list, deserialize_tuple, deserialize_buffer, deserialize_string_ascii, deserialize_string_utf8", "clar2wasm/src/words/consensus_buff.rs: FromConsensusBuff::traverse", "clar2wasm/src/standard/standard.wat: stdlib.bsearch-clarity-name, stdlib.check-clarity-name, stdlib.skip-unknown-value"]}
{"id": "C57", "title": "slice? returns exactly the requested sub-sequence", "statement": "(slice? s l r) evaluates to (some t) where t consists of the elements of s at positions l, l+1, ..., r-1 in that order and is of the same kind as s, when l <= r <= (len s), and to none otherwise; evaluating it does not change s or any other live value.", "quantifier": "every sequence (list, buffer, ASCII string, UTF-8 string) of every element type, every pair of 128-bit unsigned positions, every place of the word in a function body", "why_tests_cant": "positions are 128-bit numbers narrowed to 32 bits by the generated code and scaled by the element size; tests use small positions, while an overflow flag that is overwritten by the second conversion shows only when the left position exceeds 2^32 and the right one does not", "anchors": ["clar2wasm/src/words/sequences.rs: Slice::traverse", "clar2wasm/src/wasm_generator.rs: visit_call_user_defined"]}
{"id": "C58", "title": "replace-at? changes one position and nothing else", "statement": "(replace-at? s i e) evaluates to (some t) where t is s with the element at i replaced by e and every other element kept, when i < (len s), and to none otherwise; s itself is not changed.", "quantifier": "every sequence of every kind and element type, every 128-bit position, every replacement value of the element type, including the empty buffer or string", "why_tests_cant": "the copy, the offset of the element and the written size depend on the element type and on the reservation of the call frame; tests fix one type and small positions and do not combine an out-of-range position with an empty replacement", "anchors": ["clar2wasm/src/words/sequences.rs: ReplaceAt::traverse", "clar2wasm/src/wasm_generator.rs: read_from_memory, write_to_memory"]}
{"id": "C59", "title": "index-of finds the first position of an element", "statement": "(index-of? s e) evaluates both operands in order and yields (some n) exactly when e equals the element of s at n and none at a smaller position, and none exactly when no element of s equals e.", "quantifier": "every sequence of every kind and element type, every value of the element type, every operand expression with effects or aborts", "why_tests_cant": "equality is generated per element type and the loop reads each element from memory; a test with a few literals cannot show that the least index is returned for every sequence, nor what happens to the second operand's effects when the sequence is empty", "anchors": ["clar2wasm/src/words/sequences.rs: IndexOf::traverse", "clar2wasm/src/words/equal.rs: wasm_equal"]}
{"id": "C60", "title": "fold applies the function to every element in order", "statement": "(fold f s init) calls f with each element of s, first to last, and the value returned by the previous call (init for the first), and evaluates to the last value returned (init if s is empty); if a call aborts, the whole aborts with the same code and no later element is visited.", "quantifier": "every sequence of every kind, every user-defined function and every foldable native word, every accumulator type, every initial value", "why_tests_cant": "the number of iterations and the function are arbitrary, and the accumulator has to survive the calls in between; tests fold short lists with scalar accumulators, while a value kept in a freed call frame is overwritten only for particular functions and sizes", "anchors": ["clar2wasm/src/words/sequences.rs: Fold::traverse", "clar2wasm/src/wasm_generator.rs: visit_call_user_defined, copy_value"]}
{"id": "C61", "title": "Programs read and write the contract's tables exactly as Clarity says", "statement": "A compiled function that uses var-get, var-set, map-get?, map-set, map-insert, map-delete, ft-get-supply, ft-get-balance, ft-mint?, ft-burn? and ft-transfer? anywhere in its body, nested in any other words, in branches, in folds and behind calls to other functions, ends with the value the Clarity reference semantics gives and with exactly the tables, token balances, supplies, events and memory budget that semantics gives; in particular a var-get after a var-set sees the value written, tables that hold values of their declared types still do after any run, and nothing is written by a word that reports a failure.", "quantifier": "all well-typed programs over the modelled words, all arguments, all contract tables, balances, supplies and memory budgets", "why_tests_cant": "The number of programs, of interleavings of reads and writes, and of table contents is unbounded; a test fixes one program and one state.", "anchors": ["clar2wasm/src/words/data_vars.rs: SetDataVar, GetDataVar", "clar2wasm/src/words/maps.rs: MapGet, MapSet, MapInsert, MapDelete", "clar2wasm/src/words/tokens.rs: MintFungibleToken, BurnFungibleToken, TransferFungibleToken, GetBalanceOfFungibleToken, GetSupplyOfFungibleToken", "clar2wasm/src/linker.rs: link_get_variable_fn, link_set_variable_fn, link_map_*_fn, link_ft_*_fn", "clar2wasm/src/wasm_generator.rs: WasmGenerator"]}
{"id": "C62", "title": "A call to a public function of the same contract keeps its effects exactly when it yields ok; a read-only call has none", "statement": "For every program, every place in it where a function of the same contract is called, and every state of the contract's variables, maps, tokens and events: if the function is public and yields (ok v), the compiled caller continues with the tables the callee left; if it yields (err e), or leaves early with an err, with exactly the tables from just before the call (the arguments' effects included); if it is read-only, with the tables from before the call whatever it yields. Calls nest.", "quantifier": "all programs, nesting depths, call sites, argument values, results and table contents", "why_tests_cant": "a missing or misplaced savepoint only shows when a callee fails after having written, at some depth of nesting, and a test checks one table", "anchors": ["clar2wasm/src/wasm_generator.rs: local_call_public", "clar2wasm/src/wasm_generator.rs: local_call_read_only", "clar2wasm/src/wasm_generator.rs: visit_call_user_defined", "clar2wasm/src/linker.rs: link_begin_public_call_fn", "clar2wasm/src/linker.rs: link_commit_call_fn", "clar2wasm/src/linker.rs: link_roll_back_call_fn"]}
{"id": "C63", "title": "tx-sender, contract-caller and the savepoints are restored when a function returns", "statement": "Whatever a function of a contract does (as-contract, calls to public and read-only functions, nested in any way, left normally or by try!, unwrap! or asserts!), when it has returned, tx-sender, contract-caller, the number of open savepoints and the right to write are what they were when it was called; inside as-contract both are the contract's principal.", "quantifier": "all programs, nesting depths, ways to leave a function and senders", "why_tests_cant": "tests leave as-contract by its last expression; leaving it early needs a specific error inside it and an observation after the call", "anchors": ["clar2wasm/src/words/contract.rs: AsContract", "clar2wasm/src/linker.rs: link_enter_as_contract_fn", "clar2wasm/src/linker.rs: link_exit_as_contract_fn", "clar2wasm/src/linker.rs: link_tx_sender_fn", "clar2wasm/src/linker.rs: link_contract_caller_fn"]}
{"id": "C64", "title": "map applies the function to corresponding elements, in order, up to the shortest sequence", "statement": "(map f s1 ... sn) evaluates its sequences in order, then calls f with the elements at the same position of each sequence, position after position, as many times as the shortest sequence has elements, and yields the list of the results in the same order; if a call aborts, map aborts with that error and makes no further call. This holds for functions of the contract of any kind (a public or read-only function called by map gets its savepoint or read-only context at each call) and for the native words that can be applied, and none of it depends on where the sequences come from (variable, parameter, list built in place).", "quantifier": "all programs, functions, numbers and lengths of sequences, element values and chain states", "why_tests_cant": "a wrong bound, stride or reservation shows only for some lengths, mixes of lengths and element sizes; tests use short lists", "anchors": ["clar2wasm/src/words/sequences.rs: Map", "clar2wasm/src/wasm_generator.rs: visit_call_user_defined", "clar2wasm/src/wasm_generator.rs: create_call_stack_local"]}
{"id": "C65", "title": "filter keeps exactly the elements its discriminator accepts, in order", "statement": "(filter f s) asks f about each element of the sequence s, first element first, once each, and yields the sequence of exactly those elements for which f answers true, in their original order; of an empty sequence it yields the empty sequence without calling f; if a call aborts, filter aborts with that error and makes no further call; the sequence filtered is not changed.", "quantifier": "all programs, discriminators, sequence types and lengths (zero included), element values and chain states", "why_tests_cant": "a wrong start, stride or stop condition shows only for some lengths and element sizes; the tests filter a few non-empty literals", "anchors": ["clar2wasm/src/words/conditionals.rs: Filter", "clar2wasm/src/wasm_generator.rs: create_call_stack_local"]}
{"id": "C66", "title": "A successful nft-mint?, nft-burn? or nft-transfer? is (ok true), to the host and to the contract", "statement": "When nft-mint?, nft-burn? or nft-transfer? succeeds, its result is the value (ok true): the host reads (ok true) when the result leaves the module, and inside the contract it compares equal to (ok true) and to nothing else. When it is refused the result is (err u1), (err u2) or (err u3), and compares equal to that error only.", "quantifier": "all arguments, memories, chain states and all values it is compared with", "why_tests_cant": "Tests return the result from the contract or test it with is-ok, try! or unwrap; none compares it with is-eq.", "anchors": ["clar2wasm/src/linker.rs: link_nft_burn_fn, link_nft_mint_fn, link_nft_transfer_fn", "clar2wasm/src/words/tokens.rs: BurnNonFungibleToken, TransferNonFungibleToken, MintNonFungibleToken", "clar2wasm/src/words/equal.rs: IsEq, wasm_equal"]}
{"id": "C67", "title": "A constant reads back as the value it was defined with", "statement": "After define-constant has run, the constant stands for the value its expression had: every later use of its name, in any function and however often, leaves exactly that value, changes nothing the contract can observe, and does so whatever the constant's type.", "quantifier": "every constant name, every type without trait references, every value of the type (literal or computed), every state of the module in which the definition or the use runs", "why_tests_cant": "the value crosses the boundary three times (stack to memory to host, host to memory, memory to stack), and the writer and the reader lay it out by two types that need not agree; the cases that differ are values of composite types of particular shapes", "anchors": ["clar2wasm/src/words/constants.rs: DefineConstant::traverse", "clar2wasm/src/wasm_generator.rs: lookup_constant_variable, create_call_stack_local, read_from_memory", "clar2wasm/src/linker.rs: link_save_constant_fn, link_load_constant_fn"]}
{"id": "C68", "title": "an at-block expression looks into the past and nothing else does", "statement": "The value of (at-block h e) is the value e has when it is evaluated with the data variables, maps and token tables the contract had at the block h; when it has been evaluated the program goes on in the present, with the tables and the right to write it had before, however e ended.", "quantifier": "every well-typed program, every function body (at-block h e) with expressions h and e of the modelled fragment, all arguments, every chain state and history of tables, every memory with room for the frames", "why_tests_cant": "A test reads a variable at one block of a simulated chain. What is left behind depends on how the inner expression ended and on the stack of savepoints, and it shows only in the code that runs afterwards.", "anchors": ["clar2wasm/src/words/blockinfo.rs: AtBlock", "clar2wasm/src/linker.rs: link_enter_at_block_fn, link_exit_at_block_fn", "clar2wasm/src/wasm_generator.rs: early_return_block_id"]}
{"id": "C69", "title": "STX are conserved, spent only by the sender, and never while locked", "statement": "stx-get-balance answers what the principal can spend now, stx-account what is locked, until when, and what is free, and both change nothing. stx-transfer?, stx-transfer-memo? and stx-burn? answer (err u3) for a zero amount, (err u2) when sender and recipient are the same, (err u4) when the principal is not the transaction's sender, (err u1) when it cannot spend that much, and (ok true) otherwise; (ok true) means exactly the announced event happened, an error that nothing did. Whatever code runs: holdings change exactly by the announced events, all STX together and the liquid supply fall exactly by what was burnt, only the sender is debited, and locked STX stay locked.", "quantifier": "every module (arbitrary code), amount, principals, memo, lock state of every version, ledger state and history of calls", "why_tests_cant": "a test checks a few amounts on a few accounts; overflow, lock heights of four versions, and interleavings of words over histories of arbitrary code are out of its reach", "anchors": ["clar2wasm/src/words/stx.rs", "clar2wasm/src/linker.rs: link_stx_get_balance_fn, link_stx_account_fn, link_stx_burn_fn, link_stx_transfer_fn"]}
{"id": "C70", "title": "contract-call? runs the named function of the named contract on the arguments' values", "statement": "A static contract-call? evaluates its arguments from left to right and runs the named public or read-only function of the named contract exactly once, on exactly those values, in the chain state they left, with the calling contract as contract-caller and the sender unchanged. The value of the expression is the callee's result, the chain state afterwards is what the callee left, the caller's own sender and caller are what they were before, an early return in an argument makes no call, and a call for which the generator reserved memory does not run out of it.", "quantifier": "every callee (arbitrary behaviour and state change), argument expressions, argument and result types, memory layout and chain state", "why_tests_cant": "arguments pass through linear memory with a layout computed from types; a test passes arguments of the declared types; sizes, inference of none/empty literals, nested calls and callees are unbounded", "anchors": ["clar2wasm/src/words/contract.rs: ContractCall", "clar2wasm/src/linker.rs: link_contract_call_fn", "clar2wasm/src/wasm_generator.rs: create_call_stack_local, write_to_memory, read_from_memory"]}
{"id": "C71", "title": "Block information is the chain's, of past blocks only", "statement": "A function whose result is get-block-info?, get-stacks-block-info? or get-tenure-info? of a height answers none unless the height is below the height of the block it is evaluated in (in at-block: of the block it looks from), get-burn-block-info? none unless the height fits 32 bits; otherwise the answer is some of exactly what the chain has for the named property at that height, or none where the chain has none (a reward not yet known, a burn block not yet seen). The full 128-bit height counts, so a height that agrees with a past one in its low bits answers none. Asking changes nothing.", "quantifier": "every property of the four words (21), height expression and 128-bit height, chain, state and memory layout", "why_tests_cant": "heights range over 128 bits and the answer passes through linear memory, where none is written as four bytes over whatever was there; tests ask about a block or two", "anchors": ["clar2wasm/src/words/blockinfo.rs: GetBlockInfo, GetBurnBlockInfo, GetStacksBlockInfo, GetTenureInfo", "clar2wasm/src/linker.rs: check_height_valid, link_get_block_info_*, link_get_stacks_block_info_*, link_get_tenure_info_*, link_get_burn_block_info_*"]}
{"id": "C72", "title": "print registers the value and gives it back", "statement": "`(print e)` evaluates `e` once, registers one print event whose value is the value of `e` (a contract passed as a trait appears as its principal), after everything `e` did, and yields that value; events are registered in evaluation order, and a print that the module's requested memory allows does not fail. Printing does not disturb any value held elsewhere.", "quantifier": "every operand type and value, every nesting of prints in sequences, let and if around arbitrary expressions, every program, memory layout and stack position", "why_tests_cant": "The value travels through the call stack in its in-memory form and is read back by the host by a type recovered from a text; a wrong size, layout or type only shows for particular types, values and stack positions.", "anchors": ["clar2wasm/src/words/print.rs: Print::traverse", "clar2wasm/src/wasm_generator.rs: type_for_serialization, create_call_stack_local, write_to_memory", "clar2wasm/src/linker.rs: link_print_fn"]}
{"id": "C73", "title": "Principals are checked, taken apart and put together as Clarity says", "statement": "`is-standard` answers whether the version of a principal belongs to the network the contract runs on; `principal-destruct?` gives the hash, the optional contract name and the version, as `ok` exactly when `is-standard` is true and as `err` otherwise; `principal-construct?` gives the principal with these parts, an error with code 0 and the principal when the version is of the other network, with code 1 when the version or hash is malformed and with code 2 when the name is not a contract name. Taking a principal apart and putting it together again gives the same principal. None of this disturbs values held elsewhere, and it never fails in the memory the module requests.", "quantifier": "every principal with or without a contract name, every version byte, hash and name, both networks, every operand expression, nesting, memory layout and stack position", "why_tests_cant": "Versions, hash bytes and names are a large space; the parts are addresses into the bytes of the principal and the new principal is written beside its operands, so overlaps and bounds depend on the layout of memory at that moment.", "anchors": ["clar2wasm/src/words/principal.rs: IsStandard, Construct, Destruct, generate_tuple", "clar2wasm/src/standard/standard.wat: stdlib.principal-construct, stdlib.is-version-valid, stdlib.is-valid-contract-name"]}
{"id": "C74", "title": "Integers become strings and strings integers as Clarity says, anywhere in a program", "statement": "In a compiled function, int-to-ascii and int-to-utf8 of any integer expression give its canonical decimal notation, string-to-int? and string-to-uint? of any string expression give some of the number it denotes or none, and reading what was printed gives the integer back; errors and early returns of the operands come first, nothing below the stack pointer changes. (FALSE in corners: some 39-digit strings above 2^128 read as some number, zero-padded strings of more than 39 digits read as none, and string-to-int? of an empty string that is the last thing in memory stops.)", "quantifier": "every integer, every ASCII and UTF-8 string, every operand expression, nesting, memory layout and stack position", "why_tests_cant": "The text is written into a region the program reserves next to live operands, and the reader's overflow check fails only on a vanishing fraction of strings; layout and values multiply.", "anchors": ["clar2wasm/src/words/conversion.rs: StringToInt, StringToUint, IntToAscii, IntToUtf8", "clar2wasm/src/standard/standard.wat: stdlib.int-to-string, stdlib.int-to-utf8, stdlib.string-to-int, stdlib.utf8-to-int"]}
{"id": "C75", "title": "Signatures are recovered and checked, and public keys become principals, as Clarity says, anywhere in a program", "statement": "In a compiled function, whatever the cryptography: secp256k1-recover? aborts the transaction when the message is not 32 bytes, otherwise gives (err u2) for bytes that are no recoverable signature, (err u1) for a signature of nobody and ok of the 33-byte key; secp256k1-verify aborts when the message is not 32 bytes, is false for bytes that are no signature whatever the key, aborts when then the key is not 33 bytes and otherwise tells whether the signature is valid; principal-of? aborts when the key is not 33 bytes, gives (err u1) for bytes that are no key and ok of its standard principal. Operands are evaluated in order, their errors and early returns come first, live values and memory below the stack pointer are kept.", "quantifier": "every cryptographic function, every message, signature and key, every operand expression, nesting, memory layout and stack position", "why_tests_cant": "Which check comes first shows only for inputs wrong in two ways, and the answer is written next to live operands at an address that depends on everything around it.", "anchors": ["clar2wasm/src/words/secp256k1.rs: Recover, Verify", "clar2wasm/src/words/principal.rs: PrincipalOf", "clar2wasm/src/linker.rs: link_secp256k1_recover_fn, link_secp256k1_verify_fn, link_principal_of_fn"]}
{"id": "C76", "title": "keccak256 and sha512/256 digest the bytes Clarity says, anywhere in a program", "statement": "In a compiled function, whatever the two hash functions: keccak256 and sha512/256 give the 32-byte digest of the operand when it is a buffer, and of the operand's 16 bytes in two's complement, least significant first, when it is an integer, signed or not; they never fail, the operand may be computed by any program, and everything below the function's own call stack space is left as it was.", "quantifier": "every pair of hash functions giving 32 bytes, every operand of every type the words take, every program computing it, every memory and stack position", "why_tests_cant": "The digest of an integer depends on every one of its bits and on where the generator put it; the answer is written next to live operands at an address that depends on everything around it.", "anchors": ["clar2wasm/src/words/hashing.rs: Keccak256, Sha512_256", "clar2wasm/src/linker.rs: link_keccak256_fn, link_sha512_256_fn"]}
