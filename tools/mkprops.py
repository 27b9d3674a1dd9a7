import json
P=[]
def p(id,title,statement,quantifier,why,anchors):
    P.append(dict(id=id,title=title,statement=statement,quantifier=quantifier,why_tests_cant=why,anchors=anchors))
W="clar2wasm/src/standard/standard.wat"
p("C01","Integer addition is exact or aborts with overflow",
 "Calling the runtime's signed (+ on int) or unsigned (+ on uint) addition on two 128-bit Clarity integers returns their exact mathematical sum when it is representable in the type, and otherwise aborts with the overflow error; nothing else (memory, other globals) changes.",
 "all pairs of 128-bit signed / unsigned integers, all machine stores, all modules containing the standard library",
 "2^256 operand pairs; the carry/overflow logic is split over two 64-bit limbs so failures can hide on sparse boundary sets",
 [W+": stdlib.add-int128, stdlib.add-int, stdlib.add-uint, stdlib.runtime-error"])
p("C02","Integer subtraction is exact or aborts with underflow",
 "Signed and unsigned subtraction return the exact difference when representable, and otherwise abort with the underflow error. (Found to be FALSE for unsigned subtraction when the high limb of the subtrahend is 2^64-1 and the low limb borrows: the exact set of wrong inputs is characterised.)",
 "all pairs of 128-bit signed / unsigned integers",
 "the set of wrong inputs has density about 2^-65 of the operand pairs: random tests will never hit it",
 [W+": stdlib.sub-int128, stdlib.sub-int, stdlib.sub-uint"])
p("C03","Integer multiplication is exact or aborts with overflow",
 "Signed and unsigned multiplication return the exact product when representable, otherwise abort with overflow. (FALSE for signed products equal to -2^127 with neither factor 1, which abort; exact set characterised.)",
 "all pairs of 128-bit signed / unsigned integers",
 "Hacker's-Delight limb multiplication with a leading-zero heuristic; correctness on 2^256 pairs",
 [W+": stdlib.mul-int128, stdlib.mul-uint, stdlib.mul-int, clz-int128"])
p("C04","Division and remainder truncate toward zero and reject a zero divisor",
 "Unsigned/signed division and mod return the truncated quotient / remainder with the sign of the dividend; a zero divisor aborts with the division-by-zero error; MIN / -1 aborts with overflow.",
 "all pairs of 128-bit integers",
 "a 128-iteration long-division loop over 64-bit limbs; needs a loop invariant, not samples",
 [W+": stdlib.div-int128, stdlib.div-uint, stdlib.div-int, stdlib.mod-uint, stdlib.mod-int"])
p("C05","Exponentiation is exact or aborts",
 "pow on int/uint returns base^exponent exactly when representable, and aborts with an arithmetic/overflow error otherwise. (FALSE for base -1 with exponent above 127, which aborts although the result is +-1.)",
 "all base/exponent pairs",
 "square-and-multiply loop over unbounded exponents",
 [W+": stdlib.pow-uint, stdlib.pow-int, pow-inner"])
p("C06","log2 and sqrti are exact floors",
 "log2 returns floor(log2 n) for n>0 and aborts for n<=0; sqrti returns floor(sqrt n) for n>=0 and aborts for n<0.",
 "all 128-bit integers",
 "sqrti is an iterative bit-by-bit loop; every perfect-square boundary matters",
 [W+": stdlib.log2-uint, stdlib.log2-int, stdlib.sqrti-uint, stdlib.sqrti-int, log2"])
p("C07","Integer comparisons decide the mathematical order",
 "<, <=, >, >= on int and uint return true exactly when the mathematical relation holds.",
 "all pairs of 128-bit integers",
 "limb-wise comparison with mixed signedness; needs all pairs",
 [W+": stdlib.lt-uint, stdlib.gt-uint, stdlib.le-uint, stdlib.ge-uint, stdlib.lt-int, stdlib.gt-int, stdlib.le-int, stdlib.ge-int"])
p("C08","Buffer and string comparisons are lexicographic",
 "<, <=, >, >= on two byte sequences anywhere in memory decide the lexicographic (prefix-first) byte order and read nothing outside the two sequences.",
 "all lengths, contents and placements (including overlapping) of two byte sequences in memory",
 "unbounded lengths and placements",
 [W+": stdlib.lt-buff, stdlib.gt-buff, stdlib.le-buff, stdlib.ge-buff"])
p("C09","Bitwise operators and shifts act on the 128-bit two's-complement representation",
 "bit-and/or/xor/not return the bitwise result on the 128-bit representation; bit-shift-left by s is multiplication by 2^(s mod 128) modulo 2^128; bit-shift-right is floor division by 2^(s mod 128), logical on uint and arithmetic on int.",
 "all operands and all 64-bit shift amounts",
 "limb-crossing shifts with amount 0, 63, 64, 127 boundaries on all values",
 [W+": stdlib.bit-and, stdlib.bit-or, stdlib.bit-xor, stdlib.bit-not, stdlib.bit-shift-left, stdlib.bit-shift-right-uint, stdlib.bit-shift-right-int"])
p("C10","to-int / to-uint are the identity or abort",
 "to-uint aborts exactly on negative ints and to-int aborts exactly on uints >= 2^127; otherwise the number is unchanged.",
 "all 128-bit integers","total over the type",
 [W+": stdlib.to-uint, stdlib.to-int"])
p("C11","Buffers convert to integers by their big-/little-endian value",
 "buff-to-(u)int-be/le return the integer whose big-/little-endian bytes are the buffer, for every length <= 16, abort for longer buffers, and leave memory unchanged.",
 "all buffers of length 0..16 at all addresses the module can place them; all over-long lengths",
 "masking trick over unaligned 8-byte loads; every length/content/address",
 [W+": stdlib.buff-to-uint-be, stdlib.buff-to-uint-le"])
p("C12","Decimal strings parse to the integer they denote, or none",
 "string-to-int?/string-to-uint? (ASCII and UTF-8) return some n exactly for the strings denoting an in-range integer n and none for every other string. (FALSE for uint: some 39-digit strings out of range parse to a wrapped number.)",
 "all byte strings, all lengths",
 "overflow detection in the last digits: wrong inputs are a vanishing fraction of the strings",
 [W+": stdlib.string-to-uint, stdlib.string-to-int, stdlib.utf8-to-uint, stdlib.utf8-to-int"])
p("C13","Integers print as their canonical decimal string",
 "int-to-ascii / int-to-utf8 on int/uint produce the canonical decimal digits (no leading zeros, '-' for negatives), the UTF-8 variants as 4-byte big-endian scalars, and the reported length is that of the text.",
 "all 128-bit integers, all stores with room at the stack pointer",
 "loop per digit with in-place reversal",
 [W+": stdlib.uint-to-string, stdlib.int-to-string, stdlib.uint-to-utf8, stdlib.int-to-utf8"])
p("C14","Printing then parsing an integer is the identity",
 "Parsing the text that int-to-ascii/int-to-utf8 produced returns some of the original integer.",
 "all 128-bit integers","composition of two loops over all values",
 [W+": stdlib.uint-to-string, stdlib.string-to-uint, stdlib.int-to-string, stdlib.string-to-int"])
p("C15","sha256 equals FIPS 180-4 SHA-256",
 "The runtime's sha256 on any byte buffer in memory leaves at the output address exactly the FIPS 180-4 digest of the buffer's bytes.",
 "all buffer lengths and contents","unbounded message length, padding boundaries",
 [W+": stdlib.sha256-buf, extend-data, block64, working-vars"])
p("C16","sha512 equals FIPS 180-4 SHA-512",
 "The runtime's sha512 on any byte buffer leaves the FIPS 180-4 digest at the output address.",
 "all buffer lengths and contents","unbounded message length, padding boundaries",
 [W+": stdlib.sha512-buf, pad-sha512-data, process-sha512-block"])
p("C17","hash160 equals RIPEMD-160 of SHA-256",
 "hash160 on any byte buffer leaves RIPEMD160(SHA256(buffer)) at the output address.",
 "all buffer lengths and contents","unbounded message length",
 [W+": stdlib.hash160-buf, hash160-pad, hash160-compress, hash160-f1..f5"])
p("C18","Hashing an integer hashes its 16 little-endian bytes",
 "sha256/sha512/hash160 on int/uint equal the digest of the 16-byte little-endian two's-complement encoding.",
 "all 128-bit integers","2^128 inputs",
 [W+": stdlib.sha256-int, stdlib.sha512-int, stdlib.hash160-int"])
p("C19","Principal construction and name validation follow the SIP-005 grammar",
 "Contract-name and version validation accept exactly the names/versions of the grammar, and principal construction returns ok / the documented error code accordingly.",
 "all byte strings, versions and network flags","unbounded strings; control flow with several error classes",
 [W+": stdlib.principal-construct, stdlib.is-valid-contract-name, stdlib.is-alpha, stdlib.is-valid-char, stdlib.is-version-valid"])
p("C20","ASCII string validation accepts exactly ASCII",
 "is-valid-string-ascii returns true exactly when every byte of the buffer is a legal Clarity ASCII character code (printable 32..126, tab, newline, form feed or carriage return).",
 "all buffers, lengths and placements","SIMD blocks of 16 plus a tail: every length mod 16 and position",
 [W+": stdlib.is-valid-string-ascii"])
p("C21","UTF-8 conversions implement Unicode",
 "convert-scalars-to-utf8 emits the UTF-8 encoding of the scalar sequence; utf8-to-string-utf8 accepts exactly well-formed UTF-8 of at most the declared number of characters and yields its scalars; the two are inverse.",
 "all scalar sequences / byte strings","unbounded strings; surrogates, overlong and truncated forms",
 [W+": stdlib.convert-scalars-to-utf8, stdlib.utf8-to-string-utf8"])
p("C22","Clarity-name comparison and binary search are correct",
 "compare-clarity-names decides equality/order of two names, and bsearch-clarity-name on any sorted key table finds a key iff it is present.",
 "all names, all sorted tables of any size","unbounded tables",
 [W+": stdlib.compare-clarity-names, stdlib.bsearch-clarity-name, stdlib.check-clarity-name"])
p("C23","Skipping an unknown serialized value consumes exactly that value",
 "skip-unknown-value at a well-formed serialized value returns the offset just past it; on malformed input it returns the failure marker and never moves outside the buffer. (The second half is FALSE: several counterexamples.)",
 "all serialized values of any nesting; all byte strings",
 "unbounded nesting; malformed encodings with wrapping lengths",
 [W+": stdlib.skip-unknown-value, skip-*"])
p("C24","Pure runtime functions have no side effects",
 "Arithmetic, comparison, bitwise, parsing and validation runtime functions leave memory, globals and host state exactly as they found them; printing and hashing functions only write inside their documented output/scratch area.",
 "all arguments and stores","absence of effects over the whole memory cannot be sampled",
 [W])
p("C25","Runtime functions always terminate",
 "Each runtime-library function above terminates (returns or aborts) for every argument, in a number of steps not dependent on an oracle.",
 "all arguments and stores","termination is a property of all executions",
 [W])
p("C26","Host value codec round-trips",
 "Any Clarity value the host writes into module memory for a type is read back equal by the host reader for that type, wherever it was placed.",
 "all types, all values of the type, all addresses and memory contents",
 "unbounded nesting of types and values",
 ["clar2wasm/src/wasm_utils.rs: write_to_wasm, read_from_wasm, read_from_wasm_indirect"])
p("C27","Sizes computed for values are the sizes written",
 "The host writer reports exactly the fixed representation size of the type, plus in-memory bytes bounded by the declared maximum size; nothing outside the two reserved ranges is written.",
 "all types and values","unbounded nesting; buffer overruns are absence properties",
 ["clar2wasm/src/wasm_utils.rs: get_type_size, get_type_in_memory_size, write_to_wasm"])
p("C28","Generated memory writes are read back by generated reads",
 "The code emitted to store a value of a type followed by the code emitted to load it leaves the same stack values, for every type (the word standing for a part of unknown type, which holds no value, becomes 0); it changes no other memory and no local in use.",
 "all types (any nesting), all stack values, all offsets",
 "the code is generated from the type: infinitely many programs",
 ["clar2wasm/src/wasm_generator.rs: write_to_memory, read_from_memory"])
p("C29","Generated code and the host agree on the memory layout",
 "A value stored by generated code is read by the host as the same Clarity value, and vice versa.",
 "all types and values","infinitely many generated programs",
 ["clar2wasm/src/wasm_generator.rs: write_to_memory, read_from_memory","clar2wasm/src/wasm_utils.rs: read_from_wasm, write_to_wasm"])
p("C30","to-consensus-buff? emits the canonical SIP-005 bytes",
 "The emitted serialization code for a type writes exactly the SIP-005 encoding of the value and returns its length.",
 "all types and values","infinitely many generated programs and values",
 ["clar2wasm/src/serialize.rs"])
p("C31","Consensus serialization is injective and prefix-free",
 "Two Clarity values with the same SIP-005 bytes are equal, and no encoding is a proper prefix of another.",
 "all values","needs induction over values",
 ["clar2wasm/src/serialize.rs","clar2wasm/src/deserialize.rs"])
p("C32","Short-circuit and conditional forms evaluate like Clarity",
 "and/or stop at the first deciding operand, if evaluates exactly one branch.",
 "all operand lists and all emitted sub-programs","control-flow over arbitrary generated operands",
 ["clar2wasm/src/words/logical.rs","clar2wasm/src/words/conditionals.rs"])
p("C33","is-eq decides structural equality",
 "The code emitted for is-eq on operands of any type returns true exactly when the two values are equal.",
 "all types and values","infinitely many generated programs",
 ["clar2wasm/src/words/equal.rs"])
p("C34","Interned literals never overlap and keep their bytes",
 "Every literal added to the module's data segment can be read back at the offset returned, forever; equal literals share an offset; distinct literals never overlap each other or the standard data.",
 "all sequences of literal insertions","all histories of insertions",
 ["clar2wasm/src/wasm_generator.rs: add_clarity_string_literal, add_string_literal, add_bytes_literal, add_literal"])
p("C35","The module declares enough memory pages",
 "The declared number of pages covers literals, frame and workspace for every size, and is the least such number. (FALSE when the total exceeds 2^32: the sum wraps.)",
 "all sizes","boundary at each 64KiB multiple",
 ["clar2wasm/src/wasm_generator.rs: set_memory_pages"])
p("C36","Failed public calls have no effect on chain state",
 "A public function call that returns an err or aborts leaves the data store as it was before; one that returns ok keeps all its writes, with arbitrary nesting.",
 "all nestings of begin/commit/rollback and all writes in between","all histories",
 ["clar2wasm/src/linker.rs: begin_public_call, commit_call, roll_back_call","clar2wasm/src/wasm_generator.rs: local_call_public"])
p("C37","Fungible-token operations conserve supply",
 "After any history of mint/burn/transfer, the total supply equals the sum of balances, never exceeds the declared maximum and balances never go negative.",
 "all operation histories, all amounts","all histories",
 ["clar2wasm/src/linker.rs: link_mint_ft_fn, link_burn_ft_fn, link_transfer_ft_fn"])
p("C38","Non-fungible tokens have at most one owner",
 "After any history of mint/burn/transfer each asset has at most one owner, mint fails on an owned asset, transfer fails unless the sender owns it.",
 "all operation histories","all histories",
 ["clar2wasm/src/linker.rs: link_mint_nft_fn, link_burn_nft_fn, link_transfer_nft_fn"])
p("C39","Cost metering charges the declared cost and stops at the budget",
 "The emitted metering code subtracts exactly the declared constant/linear/n-log-n cost and aborts as soon as the cumulative cost exceeds the budget. Cost code can be requested for every contract, and every word of a Clarity version has a price. (FALSE in part: logarithmic cost at n = 0, budgets >= 2^63, words without a table entry, and requesting cost code fails for every contract.)",
 "all cost functions, input sizes and budgets","64-bit wraparound corner cases",
 ["clar2wasm/src/cost.rs"])
p("C40","Runtime error codes map to the right Clarity error",
 "Each error code the runtime can raise is mapped to its documented Clarity error, traps that are not runtime errors are never reported as Clarity errors, and a code that is not documented is never mapped to some Clarity error.",
 "all 32-bit codes","total over codes",
 ["clar2wasm/src/error_mapping.rs"])
p("C41","Trait identifiers survive their byte encoding",
 "Decoding the byte encoding of a trait identifier returns the same identifier; malformed bytes are rejected.",
 "all identifiers / byte strings","all strings",
 ["clar2wasm/src/wasm_utils.rs: trait_identifier_as_bytes, trait_identifier_from_bytes"])
p("C42","Passing arguments and returning values preserves them",
 "A value passed to a function by the host and returned unchanged is reconstructed equal by the host.",
 "all types and values","unbounded nesting",
 ["clar2wasm/src/wasm_utils.rs: pass_argument_to_wasm, wasm_to_clarity_value, reserve_space_for_return"])
p("C43","Argument-count checks accept exactly the declared arities",
 "check_argument_count accepts a call exactly when the number of arguments satisfies the declared bound, and reports the offending counts otherwise. (The reporting half is FALSE when an earlier mismatch of the same contract already used one of the counts.)",
 "all counts","total",
 ["clar2wasm/src/wasm_utils.rs: check_argument_count"])
p("C44","A fungible token keeps the maximum supply it was declared with",
 "define-fungible-token with a maximum records exactly that maximum, with an initial supply of zero. (FALSE for maxima whose low 64 bits are >= 2^63: the recorded maximum is then at least 2^128 - 2^64.)",
 "all token names, all 128-bit maxima","sign extension of one half of a 128-bit number; tests use small caps",
 ["clar2wasm/src/linker.rs: link_define_ft_fn"])
p("C45","tx-sender and contract-caller are restored",
 "as-contract and contract-call? leave tx-sender and contract-caller of the calling code unchanged once they finish. (FALSE for contract-caller after contract-call?: it becomes the contract itself.)",
 "all contexts, nestings and callees","needs arbitrary callees and nestings",
 ["clar2wasm/src/linker.rs: link_enter_as_contract_fn, link_exit_as_contract_fn, link_contract_call_fn", "clar2wasm/src/initialize.rs: push_sender, pop_sender, push_caller, pop_caller"])
p("C46","Compiled programs compute what Clarity's evaluator says",
 "Calling a function of a compiled program, with arguments of the declared types laid out in memory in any valid way, returns the value (or aborts with the error code) that a reference evaluator for the language computes from the same arguments and chain state; it changes no global and no byte below the stack pointer, and ends. (FALSE for asserts!, variadic arithmetic, (- u0), and where the library's arithmetic is wrong: C47-C49, C02, C03, C05.)",
 "all well-typed programs over the modelled words (literals, variables, let, begin, if, and/or, is-eq, optionals, responses, match, unwraps, try!, asserts!, tuples, lists, concat, append, as-max-len?, len, element-at?, arithmetic, comparison, bitwise words, user function calls), all functions, arguments and stores",
 "compiler correctness quantifies over programs, not runs; tests sample programs",
 ["clar2wasm/src/wasm_generator.rs: traverse_expr, traverse_define_function, traverse_call_user_defined, copy_value", "clar2wasm/src/words/*.rs"])
p("C47","asserts! evaluates its thrown expression only when the predicate is false",
 "When the predicate of asserts! holds, the thrown expression has no effect: it neither aborts, returns, nor changes state. (FALSE: it is always evaluated.)",
 "all predicates and thrown expressions","needs a thrown expression with an effect and a true predicate",
 ["clar2wasm/src/words/conditionals.rs: Asserts"])
p("C48","Arithmetic words evaluate all operands before computing",
 "An early return or error in an operand of +, -, *, / takes precedence over an overflow of the operands before it. (FALSE: operands are combined pairwise as soon as two are available.)",
 "all operand lists","needs an overflow in a prefix and an effect in a later operand",
 ["clar2wasm/src/words/arithmetic.rs: Add, Sub, Mul, Div"])
p("C49","Negation aborts only when the opposite is not of the type",
 "(- x) is -x when -x is of the type, and aborts otherwise. (FALSE for (- u0), which aborts.)",
 "all integers of both types","one wrong input out of 2^129",
 ["clar2wasm/src/words/arithmetic.rs: Sub"])
p("C50","Compiled functions return words of the result type",
 "The words left by a call have the WebAssembly types of the function's result type. (FALSE for try! on an optional in a function returning a different optional, and for a variable bound to a bare none used at a wider type.)",
 "all programs the type checker accepts","type soundness of generated code; only a validator sees the mismatch",
 ["clar2wasm/src/words/conditionals.rs: ShortReturnable", "clar2wasm/src/wasm_generator.rs: visit_atom"])
p("C51","Data variables and maps keep the last value written",
 "var-set and map-set make the variable or entry the given value, map-insert does so exactly when the key has no entry and returns whether it did, map-delete removes the entry and returns whether there was one; no other key, variable, token or event changes; var-get and map-get? leave the current value in memory, changing nothing else of the chain.",
 "all stores, names, key and value types, keys and values","quantifies over all values of all types and all store contents",
 ["clar2wasm/src/linker.rs: link_get_variable_fn, link_set_variable_fn, link_map_get_fn, link_map_set_fn, link_map_insert_fn, link_map_delete_fn"])
p("C52","at-block reads the past and leaves no trace",
 "Between entering and leaving at-block, reads see the tables of the given block; after leaving, the tables, savepoints and the block being read are what they were before, whatever was written in between. An unknown block aborts.",
 "all states, blocks and intermediate code","arbitrary code between the two calls",
 ["clar2wasm/src/linker.rs: link_enter_at_block_fn, link_exit_at_block_fn"])
p("C53","Read-only contexts refuse writes",
 "In a read-only context every host function that would change chain state refuses and changes nothing. (FALSE for var-set and the token functions; map writes are refused.)",
 "all states and arguments","needs every host function in every read-only state",
 ["clar2wasm/src/linker.rs: link_map_set_fn, link_map_insert_fn, link_map_delete_fn, link_set_variable_fn, link_nft_mint_fn"])
p("C54","Hash expressions always have room and yield the digest",
 "Wherever a contract evaluates (sha256 x), (sha512 x) or (hash160 x) on a buffer or an integer, the compiled code leaves the digest of x in a fresh area of the call stack, changes nothing below the stack pointer, and never runs out of memory, whatever else the contract reserves. (FALSE for hash160: it asks for 32 bytes less scratch space than it uses and can trap.)",
 "all contracts' memory layouts, all arguments and stack pointers","the failing layouts are those within 32 bytes of a page boundary",
 ["clar2wasm/src/words/hashing.rs: traverse_hash, Hash160, Sha256, Sha512","clar2wasm/src/wasm_generator.rs: ensure_work_space, set_memory_pages, create_call_stack_local"])
p("C55","The name checker decides Clarity's grammar of names","check-clarity-name answers 1 exactly on the byte strings that are Clarity names ([a-zA-Z][a-zA-Z0-9-_!?+<>=/*]* or one of - + = / * < > <= >=, at most 128 characters) and 0 on every other byte string, without changing anything.","every byte string of every length, every address and store","unbounded strings; the code uses bit-mask tricks whose errors show on single characters",["clar2wasm/src/standard/standard.wat: stdlib.check-clarity-name"])
p("C56","from-consensus-buff? inverts the consensus encoding and refuses everything else","(from-consensus-buff? T b) evaluates to (some v) when the whole of b is an encoding of a value v of type T - the canonical SIP-005 bytes, or for tuples the same items in any order with unknown well-formed items dropped - and to none otherwise; it consumes exactly the buffer, writes only to its own reservation on the call stack, never traps, and what it accepts is a Clarity value (contract names and version bytes are validated).","every type T, every buffer content and length, every position of the buffer in memory, every value nested to any depth, every order of tuple items","the inputs are arbitrary byte strings and types nest without bound; a test decodes a handful of encodings, while a misread length, a bit set twice or an offset not advanced shows only for particular combinations of items",["clar2wasm/src/deserialize.rs: deserialize_from_memory, deserialize_integer, deserialize_principal, deserialize_bool, deserialize_optional, deserialize_response, deserialize_list, deserialize_tuple, deserialize_buffer, deserialize_string_ascii, deserialize_string_utf8","clar2wasm/src/words/consensus_buff.rs: FromConsensusBuff::traverse","clar2wasm/src/standard/standard.wat: stdlib.bsearch-clarity-name, stdlib.check-clarity-name, stdlib.skip-unknown-value"])
p("C57","slice? returns exactly the requested sub-sequence","(slice? s l r) evaluates to (some t) where t consists of the elements of s at positions l, l+1, ..., r-1 in that order and is of the same kind as s, when l <= r <= (len s), and to none otherwise; evaluating it does not change s or any other live value.","every sequence (list, buffer, ASCII string, UTF-8 string) of every element type, every pair of 128-bit unsigned positions, every place of the word in a function body","positions are 128-bit numbers narrowed to 32 bits by the generated code and scaled by the element size; tests use small positions, while an overflow flag that is overwritten by the second conversion shows only when the left position exceeds 2^32 and the right one does not",["clar2wasm/src/words/sequences.rs: Slice::traverse","clar2wasm/src/wasm_generator.rs: visit_call_user_defined"])
p("C58","replace-at? changes one position and nothing else","(replace-at? s i e) evaluates to (some t) where t is s with the element at i replaced by e and every other element kept, when i < (len s), and to none otherwise; s itself is not changed.","every sequence of every kind and element type, every 128-bit position, every replacement value of the element type, including the empty buffer or string","the copy, the offset of the element and the written size depend on the element type and on the reservation of the call frame; tests fix one type and small positions and do not combine an out-of-range position with an empty replacement",["clar2wasm/src/words/sequences.rs: ReplaceAt::traverse","clar2wasm/src/wasm_generator.rs: read_from_memory, write_to_memory"])
p("C59","index-of finds the first position of an element","(index-of? s e) evaluates both operands in order and yields (some n) exactly when e equals the element of s at n and none at a smaller position, and none exactly when no element of s equals e.","every sequence of every kind and element type, every value of the element type, every operand expression with effects or aborts","equality is generated per element type and the loop reads each element from memory; a test with a few literals cannot show that the least index is returned for every sequence, nor what happens to the second operand's effects when the sequence is empty",["clar2wasm/src/words/sequences.rs: IndexOf::traverse","clar2wasm/src/words/equal.rs: wasm_equal"])
p("C60","fold applies the function to every element in order","(fold f s init) calls f with each element of s, first to last, and the value returned by the previous call (init for the first), and evaluates to the last value returned (init if s is empty); if a call aborts, the whole aborts with the same code and no later element is visited.","every sequence of every kind, every user-defined function and every foldable native word, every accumulator type, every initial value","the number of iterations and the function are arbitrary, and the accumulator has to survive the calls in between; tests fold short lists with scalar accumulators, while a value kept in a freed call frame is overwritten only for particular functions and sizes",["clar2wasm/src/words/sequences.rs: Fold::traverse","clar2wasm/src/wasm_generator.rs: visit_call_user_defined, copy_value"])
p("C61","Programs read and write the contract's tables exactly as Clarity says",
 "A compiled function that uses var-get, var-set, map-get?, map-set, map-insert, map-delete, ft-get-supply, ft-get-balance, ft-mint?, ft-burn? and ft-transfer? anywhere in its body, nested in any other words, in branches, in folds and behind calls to other functions, ends with the value the Clarity reference semantics gives and with exactly the tables, token balances, supplies, events and memory budget that semantics gives; in particular a var-get after a var-set sees the value written, tables that hold values of their declared types still do after any run, and nothing is written by a word that reports a failure.",
 "all well-typed programs over the modelled words, all arguments, all contract tables, balances, supplies and memory budgets",
 "The number of programs, of interleavings of reads and writes, and of table contents is unbounded; a test fixes one program and one state.",
 ["clar2wasm/src/words/data_vars.rs: SetDataVar, GetDataVar","clar2wasm/src/words/maps.rs: MapGet, MapSet, MapInsert, MapDelete","clar2wasm/src/words/tokens.rs: MintFungibleToken, BurnFungibleToken, TransferFungibleToken, GetBalanceOfFungibleToken, GetSupplyOfFungibleToken","clar2wasm/src/linker.rs: link_get_variable_fn, link_set_variable_fn, link_map_*_fn, link_ft_*_fn","clar2wasm/src/wasm_generator.rs: WasmGenerator"])
p("C62","A call to a public function of the same contract keeps its effects exactly when it yields ok; a read-only call has none",
"For every program, every place in it where a function of the same contract is called, and every state of the contract's variables, maps, tokens and events: if the function is public and yields (ok v), the compiled caller continues with the tables the callee left; if it yields (err e), or leaves early with an err, with exactly the tables from just before the call (the arguments' effects included); if it is read-only, with the tables from before the call whatever it yields. Calls nest.",
"all programs, nesting depths, call sites, argument values, results and table contents",
"a missing or misplaced savepoint only shows when a callee fails after having written, at some depth of nesting, and a test checks one table",
["clar2wasm/src/wasm_generator.rs: local_call_public","clar2wasm/src/wasm_generator.rs: local_call_read_only","clar2wasm/src/wasm_generator.rs: visit_call_user_defined","clar2wasm/src/linker.rs: link_begin_public_call_fn","clar2wasm/src/linker.rs: link_commit_call_fn","clar2wasm/src/linker.rs: link_roll_back_call_fn"])
p("C63","tx-sender, contract-caller and the savepoints are restored when a function returns",
"Whatever a function of a contract does (as-contract, calls to public and read-only functions, nested in any way, left normally or by try!, unwrap! or asserts!), when it has returned, tx-sender, contract-caller, the number of open savepoints and the right to write are what they were when it was called; inside as-contract both are the contract's principal.",
"all programs, nesting depths, ways to leave a function and senders",
"tests leave as-contract by its last expression; leaving it early needs a specific error inside it and an observation after the call",
["clar2wasm/src/words/contract.rs: AsContract","clar2wasm/src/linker.rs: link_enter_as_contract_fn","clar2wasm/src/linker.rs: link_exit_as_contract_fn","clar2wasm/src/linker.rs: link_tx_sender_fn","clar2wasm/src/linker.rs: link_contract_caller_fn"])
p("C64","map applies the function to corresponding elements, in order, up to the shortest sequence",
"(map f s1 ... sn) evaluates its sequences in order, then calls f with the elements at the same position of each sequence, position after position, as many times as the shortest sequence has elements, and yields the list of the results in the same order; if a call aborts, map aborts with that error and makes no further call. This holds for functions of the contract of any kind (a public or read-only function called by map gets its savepoint or read-only context at each call) and for the native words that can be applied, and none of it depends on where the sequences come from (variable, parameter, list built in place).",
"all programs, functions, numbers and lengths of sequences, element values and chain states",
"a wrong bound, stride or reservation shows only for some lengths, mixes of lengths and element sizes; tests use short lists",
["clar2wasm/src/words/sequences.rs: Map","clar2wasm/src/wasm_generator.rs: visit_call_user_defined","clar2wasm/src/wasm_generator.rs: create_call_stack_local"])
p("C65","filter keeps exactly the elements its discriminator accepts, in order",
"(filter f s) asks f about each element of the sequence s, first element first, once each, and yields the sequence of exactly those elements for which f answers true, in their original order; of an empty sequence it yields the empty sequence without calling f; if a call aborts, filter aborts with that error and makes no further call; the sequence filtered is not changed.",
"all programs, discriminators, sequence types and lengths (zero included), element values and chain states",
"a wrong start, stride or stop condition shows only for some lengths and element sizes; the tests filter a few non-empty literals",
["clar2wasm/src/words/conditionals.rs: Filter","clar2wasm/src/wasm_generator.rs: create_call_stack_local"])
p("C66","A successful nft-mint?, nft-burn? or nft-transfer? is (ok true), to the host and to the contract","When nft-mint?, nft-burn? or nft-transfer? succeeds, its result is the value (ok true): the host reads (ok true) when the result leaves the module, and inside the contract it compares equal to (ok true) and to nothing else. When it is refused the result is (err u1), (err u2) or (err u3), and compares equal to that error only.","all arguments, memories, chain states and all values it is compared with","Tests return the result from the contract or test it with is-ok, try! or unwrap; none compares it with is-eq.",["clar2wasm/src/linker.rs: link_nft_burn_fn, link_nft_mint_fn, link_nft_transfer_fn","clar2wasm/src/words/tokens.rs: BurnNonFungibleToken, TransferNonFungibleToken, MintNonFungibleToken","clar2wasm/src/words/equal.rs: IsEq, wasm_equal"])
p("C67","A constant reads back as the value it was defined with",
  "After define-constant has run, the constant stands for the value its expression had: every later use of its name, in any function and however often, leaves exactly that value, changes nothing the contract can observe, and does so whatever the constant's type.",
  "every constant name, every type without trait references, every value of the type (literal or computed), every state of the module in which the definition or the use runs",
  "the value crosses the boundary three times (stack to memory to host, host to memory, memory to stack), and the writer and the reader lay it out by two types that need not agree; the cases that differ are values of composite types of particular shapes",
  ["clar2wasm/src/words/constants.rs: DefineConstant::traverse","clar2wasm/src/wasm_generator.rs: lookup_constant_variable, create_call_stack_local, read_from_memory","clar2wasm/src/linker.rs: link_save_constant_fn, link_load_constant_fn"])
p("C68","an at-block expression looks into the past and nothing else does",
"The value of (at-block h e) is the value e has when it is evaluated with the data variables, maps and token tables the contract had at the block h; when it has been evaluated the program goes on in the present, with the tables and the right to write it had before, however e ended.",
"every well-typed program, every function body (at-block h e) with expressions h and e of the modelled fragment, all arguments, every chain state and history of tables, every memory with room for the frames",
"A test reads a variable at one block of a simulated chain. What is left behind depends on how the inner expression ended and on the stack of savepoints, and it shows only in the code that runs afterwards.",
["clar2wasm/src/words/blockinfo.rs: AtBlock","clar2wasm/src/linker.rs: link_enter_at_block_fn, link_exit_at_block_fn","clar2wasm/src/wasm_generator.rs: early_return_block_id"])
p("C69","STX are conserved, spent only by the sender, and never while locked","stx-get-balance answers what the principal can spend now, stx-account what is locked, until when, and what is free, and both change nothing. stx-transfer?, stx-transfer-memo? and stx-burn? answer (err u3) for a zero amount, (err u2) when sender and recipient are the same, (err u4) when the principal is not the transaction's sender, (err u1) when it cannot spend that much, and (ok true) otherwise; (ok true) means exactly the announced event happened, an error that nothing did. Whatever code runs: holdings change exactly by the announced events, all STX together and the liquid supply fall exactly by what was burnt, only the sender is debited, and locked STX stay locked.","every module (arbitrary code), amount, principals, memo, lock state of every version, ledger state and history of calls","a test checks a few amounts on a few accounts; overflow, lock heights of four versions, and interleavings of words over histories of arbitrary code are out of its reach",["clar2wasm/src/words/stx.rs","clar2wasm/src/linker.rs: link_stx_get_balance_fn, link_stx_account_fn, link_stx_burn_fn, link_stx_transfer_fn"])
p("C70","contract-call? runs the named function of the named contract on the arguments' values","A static contract-call? evaluates its arguments from left to right and runs the named public or read-only function of the named contract exactly once, on exactly those values, in the chain state they left, with the calling contract as contract-caller and the sender unchanged. The value of the expression is the callee's result, the chain state afterwards is what the callee left, the caller's own sender and caller are what they were before, an early return in an argument makes no call, and a call for which the generator reserved memory does not run out of it.","every callee (arbitrary behaviour and state change), argument expressions, argument and result types, memory layout and chain state","arguments pass through linear memory with a layout computed from types; a test passes arguments of the declared types; sizes, inference of none/empty literals, nested calls and callees are unbounded",["clar2wasm/src/words/contract.rs: ContractCall","clar2wasm/src/linker.rs: link_contract_call_fn","clar2wasm/src/wasm_generator.rs: create_call_stack_local, write_to_memory, read_from_memory"])
p("C71","Block information is the chain's, of past blocks only","A function whose result is get-block-info?, get-stacks-block-info? or get-tenure-info? of a height answers none unless the height is below the height of the block it is evaluated in (in at-block: of the block it looks from), get-burn-block-info? none unless the height fits 32 bits; otherwise the answer is some of exactly what the chain has for the named property at that height, or none where the chain has none (a reward not yet known, a burn block not yet seen). The full 128-bit height counts, so a height that agrees with a past one in its low bits answers none. Asking changes nothing.","every property of the four words (21), height expression and 128-bit height, chain, state and memory layout","heights range over 128 bits and the answer passes through linear memory, where none is written as four bytes over whatever was there; tests ask about a block or two",["clar2wasm/src/words/blockinfo.rs: GetBlockInfo, GetBurnBlockInfo, GetStacksBlockInfo, GetTenureInfo","clar2wasm/src/linker.rs: check_height_valid, link_get_block_info_*, link_get_stacks_block_info_*, link_get_tenure_info_*, link_get_burn_block_info_*"])
p("C72","print registers the value and gives it back",
  r'''`(print e)` evaluates `e` once, registers one print event whose value is the value of `e` (a contract passed as a trait appears as its principal), after everything `e` did, and yields that value; events are registered in evaluation order, and a print that the module's requested memory allows does not fail. Printing does not disturb any value held elsewhere.''',
  "every operand type and value, every nesting of prints in sequences, let and if around arbitrary expressions, every program, memory layout and stack position",
  "The value travels through the call stack in its in-memory form and is read back by the host by a type recovered from a text; a wrong size, layout or type only shows for particular types, values and stack positions.",
  ["clar2wasm/src/words/print.rs: Print::traverse","clar2wasm/src/wasm_generator.rs: type_for_serialization, create_call_stack_local, write_to_memory","clar2wasm/src/linker.rs: link_print_fn"])
p("C73","Principals are checked, taken apart and put together as Clarity says",
  r'''`is-standard` answers whether the version of a principal belongs to the network the contract runs on; `principal-destruct?` gives the hash, the optional contract name and the version, as `ok` exactly when `is-standard` is true and as `err` otherwise; `principal-construct?` gives the principal with these parts, an error with code 0 and the principal when the version is of the other network, with code 1 when the version or hash is malformed and with code 2 when the name is not a contract name. Taking a principal apart and putting it together again gives the same principal. None of this disturbs values held elsewhere, and it never fails in the memory the module requests.''',
  "every principal with or without a contract name, every version byte, hash and name, both networks, every operand expression, nesting, memory layout and stack position",
  "Versions, hash bytes and names are a large space; the parts are addresses into the bytes of the principal and the new principal is written beside its operands, so overlaps and bounds depend on the layout of memory at that moment.",
  ["clar2wasm/src/words/principal.rs: IsStandard, Construct, Destruct, generate_tuple","clar2wasm/src/standard/standard.wat: stdlib.principal-construct, stdlib.is-version-valid, stdlib.is-valid-contract-name"])
p("C74","Integers become strings and strings integers as Clarity says, anywhere in a program",
  "In a compiled function, int-to-ascii and int-to-utf8 of any integer expression give its canonical decimal notation, string-to-int? and string-to-uint? of any string expression give some of the number it denotes or none, and reading what was printed gives the integer back; errors and early returns of the operands come first, nothing below the stack pointer changes. (FALSE in corners: some 39-digit strings above 2^128 read as some number, zero-padded strings of more than 39 digits read as none, and string-to-int? of an empty string that is the last thing in memory stops.)",
  "every integer, every ASCII and UTF-8 string, every operand expression, nesting, memory layout and stack position",
  "The text is written into a region the program reserves next to live operands, and the reader's overflow check fails only on a vanishing fraction of strings; layout and values multiply.",
  ["clar2wasm/src/words/conversion.rs: StringToInt, StringToUint, IntToAscii, IntToUtf8","clar2wasm/src/standard/standard.wat: stdlib.int-to-string, stdlib.int-to-utf8, stdlib.string-to-int, stdlib.utf8-to-int"])
p("C75","Signatures are recovered and checked, and public keys become principals, as Clarity says, anywhere in a program",
  "In a compiled function, whatever the cryptography: secp256k1-recover? aborts the transaction when the message is not 32 bytes, otherwise gives (err u2) for bytes that are no recoverable signature, (err u1) for a signature of nobody and ok of the 33-byte key; secp256k1-verify aborts when the message is not 32 bytes, is false for bytes that are no signature whatever the key, aborts when then the key is not 33 bytes and otherwise tells whether the signature is valid; principal-of? aborts when the key is not 33 bytes, gives (err u1) for bytes that are no key and ok of its standard principal. Operands are evaluated in order, their errors and early returns come first, live values and memory below the stack pointer are kept.",
  "every cryptographic function, every message, signature and key, every operand expression, nesting, memory layout and stack position",
  "Which check comes first shows only for inputs wrong in two ways, and the answer is written next to live operands at an address that depends on everything around it.",
  ["clar2wasm/src/words/secp256k1.rs: Recover, Verify","clar2wasm/src/words/principal.rs: PrincipalOf","clar2wasm/src/linker.rs: link_secp256k1_recover_fn, link_secp256k1_verify_fn, link_principal_of_fn"])
p("C76","keccak256 and sha512/256 digest the bytes Clarity says, anywhere in a program",
  "In a compiled function, whatever the two hash functions: keccak256 and sha512/256 give the 32-byte digest of the operand when it is a buffer, and of the operand's 16 bytes in two's complement, least significant first, when it is an integer, signed or not; they never fail, the operand may be computed by any program, and everything below the function's own call stack space is left as it was.",
  "every pair of hash functions giving 32 bytes, every operand of every type the words take, every program computing it, every memory and stack position",
  "The digest of an integer depends on every one of its bits and on where the generator put it; the answer is written next to live operands at an address that depends on everything around it.",
  ["clar2wasm/src/words/hashing.rs: Keccak256, Sha512_256","clar2wasm/src/linker.rs: link_keccak256_fn, link_sha512_256_fn"])
json.dump
with open('/verif/properties.jsonl','w') as f:
    for x in P: f.write(json.dumps(x)+"\n")
print(len(P))
