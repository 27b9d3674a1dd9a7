# clarity-wasm: formal model in Rocq (Coq 8.16.1)

## 1. Approach

clarity-wasm compiles Clarity contracts to WebAssembly.  What a contract does at
run time is the composition of three artefacts:

1. `clar2wasm/src/standard/standard.wat`, a hand-written WASM runtime library
   (128-bit arithmetic, hashing, parsing, printing, UTF-8, skipping, ...),
2. the Rust generator (`wasm_generator.rs`, `words/*.rs`, `serialize.rs`,
   `cost.rs`, ...) which emits WASM calling (1) for each Clarity expression,
3. the Rust host (`linker.rs`, `wasm_utils.rs`, `error_mapping.rs`, ...) which
   supplies data-store functions and moves values across the boundary.

The model has the same layers:

* `Wasm.v` -- syntax and executable semantics of the WASM subset the project
  uses (i32/i64/v128 operations, structured control, calls, indirect calls,
  linear memory, globals, host imports as an oracle over a host state).
* `Std*.v` (generated) -- the *actual* text of `standard.wat`, translated
  instruction by instruction by `tools/wat2coq.py` into that syntax; each
  definition cites its line range.  Theorems about the runtime library are
  theorems about executing this code, not about a re-implementation.
* Generator layer -- Gallina functions that emit WASM syntax exactly as the Rust
  code does; theorems execute the emitted code.
* Host layer -- Gallina functions over memory / host state following the Rust.

Specifications (`Spec*.v`) are separate from the model: plain mathematics over
`Z` and `list Z` (FIPS 180-4, UTF-8, decimal notation, SIP-005, ledger
invariants).

Statements of the form "function f on args returns vs with store st'" mean:
there is a fuel bound f0 such that for every fuel >= f0 the interpreter returns
that result.  So every such theorem includes termination.

## 2. Per-property plan

The exact theorem names are in MANIFEST.json; `properties.jsonl` has the English.

| id | modelled | proof |
|----|----------|-------|
| C01-C07, C09, C10 | generated AST of the runtime functions (`Std.v`) | symbolic execution + limb arithmetic in Z; loop invariants for division, pow, sqrti (`PropArith.v`) |
| C02, C03, C05, C11, C12, C19, C21 | same; the English claim is false of the code | `_refuted` witness, exact wrong set, and the full claim outside it |
| C08, C11, C20 | runtime functions reading memory | loop invariants over byte sequences (`PropBytes.v`, `PropNames.v`) |
| C12-C14 | parsing / printing loops | invariants relating digits and value; round trip by composition (`PropStrings.v`) |
| C15-C18, C54 | hash loops over memory; the words that call them | refinement to functional FIPS 180-4 / RIPEMD-160 specifications (`PropHash.v`, `PropHashWord.v`) |
| C19, C21, C22, C23, C55 | string/UTF-8/serialization walkers | refinement to list-level specifications (`PropNames.v`, `PropUtf8.v`, `PropSearch.v`, `PropSkip.v`) |
| C24, C25 | whole library | effect analysis `Effects.v` proved sound, applied to every function; termination is part of every function theorem (`PropEffects.v`) |
| C26, C27, C41-C43 | host codec functions over memory (`Codec.v`, `TraitId.v`, `ErrMap.v`) | induction over types/values against the representation relation `Rep.v` (`PropCodec.v`, `PropTrait.v`, `PropGen.v`) |
| C28, C29, C33 | emission functions `Emit.v`, `Equal.v` | induction over types, executing the emitted code (`PropEmit.v`, `PropRoom.v`) |
| C30, C31, C56 | emitted (de)serializers `Ser.v`, `Deser.v` | against SIP-005 (`SpecSer.v`, `SpecDeser.v`), induction over types (`PropSerialize.v`, `PropSer.v`, `PropDeser.v`) |
| C32, C46-C50, C57-C60 | the expression compiler `Lang.v` (words, functions, programs) | compiler correctness against an evaluator `SpecLang.v`, by induction over expressions (`LangBase.v` ... `LangMain.v`, `PropLang.v`, `PropLang2.v`); every theorem is over an arbitrary chain (`chain`, `host_ok`) serving data variables, maps and fungible tokens |
| C61 | the same compiler linked to the host functions of `Ledger.v` | `LangHost.v` proves the modelled host functions do what the table specification `SpecChain.v` says (`host_ok`); the compiler theorem then gives whole programs (`PropLang3.v`) |
| C62, C63 | calls to public and read-only functions, `as-contract`, `tx-sender`, `contract-caller` in the same compiler, linked to the savepoint and sender functions of `Ledger.v` | `SpecChain.v` says what opening and closing such a scope does; `LangTrace.v` lifts a relation between chain states from words and scopes to all evaluations; `PropLang4.v` |
| C64 | `map` in the same compiler (`LangMap.v`), with the generator's relabelling of the first sequence as a separate function (`map_src`) | loop invariant over the rows of the sequences; rows specified independently in `PropLang5.v`; concrete refutation of the relabelled list literal |
| C65 | `filter` over a parameter as the body of a function (`Filter.v`), called next to a program of the expression compiler | loop invariant: the output holds the kept elements of the prefix read so far; specification by an inductive relation in `PropLang6.v`; concrete refutation for the empty list; the word `not` as the discriminator in `PropFilterNot.v`, from the runtime function itself |
| C66 | results of the three NFT operations (`Ledger.v`, any arguments), the comparison code (`Equal.v`), the compiled words (`PropNft.v`) | cases of the operations; weakest precondition of the comparison on arbitrary operands; a compiled contract run on the modelled ledger. The claim is false: success returns 132 as its boolean |
| C67 | `define-constant` (literal and computed), use of a constant, the two host functions, the type of a value (`Const.v`; invalid names are an error instead of a panic) | weakest precondition of the definition around arbitrary code; `below`: the type of a value against its declared type; `fits`: when the layout of one type can be read as the other's (`ConstProofs.v`); a compiled contract for the values that read back as others. The claim is false |
| C68 | `(at-block h e)` as a function body (`SpecPast.v`, `AtBlock.v`): the words inside read the tables of the block (variables, maps, supply and balance; map writes are refused; the words whose writes are undone on exit have no meaning in the model), `enter_at_block`/`exit_at_block` of Ledger.v | the expression compiler's theorem for a second chain instance (`past_chain`), joined by the two host calls; a simulation between reading the past and evaluating in a state with the old tables (`LangSim.v`); the invariant that an evaluation in the past leaves its state unchanged; refuted in general and by a concrete contract for bodies that leave the function |
| C69 | the five STX words and the four host functions with their argument reading (`Stx.v`); the clarity crate's accounts (unlocked and locked amount, unlock height, version), not in /repo, are modelled after their description | specification in terms of holdings, spendable amounts and events (`SpecStx.v`); each operation against it; an invariant of arbitrary code for the histories; induction over histories for conservation and debits |
| C70 | the code of a static `contract-call?` as a function's body (`Outcall.v`) on the compiler model of C46 and the host function of `Ledger.v` (C42, C45); the callee is an arbitrary function of its arguments and the chain state; dynamic calls through a trait are not modelled | a meaning (`run_call`) with arguments evaluated in order, spelled out by a theorem; simulation of the compiled code against it, for arguments laid out as the callee reads them; refutations by computation for `none` before another argument and for the unrequested argument space |
| C71 | the four block-information words (`Blocks.v`) as a function's body on the compiler model of C46, `check_height_valid` and the 21 host functions; the database is an arbitrary function of query, height and view | specification of sight and of the query behind each property (`SpecBlocks.v`); simulation of the compiled word; the linker's wiring checked for each word and property |
| C72 | `print` (`Print.v`): generated code, `type_for_serialization`, the host function (the text parser is a parameter) on the compiler model of C46, for any chain state; statements (`SpecPrint.v`) put prints inside sequences, `let` and `if` | simulation of the compiled word, then of statements by induction; the space that is not requested refuted |
| C73 | `is-standard`, `principal-destruct?`, `principal-construct?` (`Principal.v`) as compiled words over arbitrary operand expressions on the compiler model of C46; specification in `SpecPrincipal.v`, written on principals as data | simulation of each word, using C19 for the library function; round trips and error reasons on the specification; a run for the refuted space |
| C74 | `string-to-int?`, `string-to-uint?`, `int-to-ascii`, `int-to-utf8` (`Conv.v`) as compiled words over arbitrary operand expressions on the compiler model of C46; specification in `SpecConv.v`, with its own decimal printer (shown equal to the canonical notation of `SpecBytes.v`) | simulation of each word, using C12/C13 for the library functions; the bytes below address 4 and the end of the address space are excluded in `conv_ready`; false in three corners, two refuted on compiled programs and one in C12 |
| C75 | `secp256k1-recover?`, `secp256k1-verify`, `principal-of?` (`Crypto.v`: generated code and host functions) as compiled words over arbitrary operand expressions on the compiler model of C46; the elliptic curve and the address computation are parameters (`crypto`), assumed only to give 33-byte keys and standard principals | the meaning (`SpecCrypto.v`) spelled out by three theorems; simulation of each word; a corollary without any program hypothesis for one program and all messages and signatures |
| C76 | `keccak256`, `sha512/256` (`Crypto.v`: generated code and host functions, `KHash` in `SpecCrypto.v`) as compiled words over arbitrary operand expressions on the compiler model of C46; the two hash functions are parameters (`crypto`), assumed only to give 32 bytes | what is hashed spelled out and shown invertible; simulation of the word in two steps (the operand becomes a buffer, the host digests it); theorems without any program hypothesis for every operand type and for the digest of a digest |
| C34, C35, C40 | generator bookkeeping `Gen.v`, error mapping `ErrMap.v` | invariants over histories of generator steps (`PropGen.v`, `PropRoom.v`) |
| C36-C38, C44, C45 | host ledger state machine `Ledger.v`, call sequences `Calls.v` | invariants over executions of *arbitrary* module code (`Invar.v`, `LedgerProofs.v`, `PropLedger.v`) |
| C39 | emitted metering code `Cost.v`, cost tables (generated) | symbolic execution; induction over sequences of charges (`PropCost.v`) |
| C51-C53 | host functions for variables, maps, at-block | exact effect of each import on the store (`PropStore.v`) |

## 3. Trusted base

* The kernel of Coq 8.16.1, including its bytecode evaluator (`vm_compute` is used for
  concrete examples and for computations on closed terms).
* Axioms: none of our own.  Every property file ends each theorem with `Print Assumptions`,
  and each prints "Closed under the global context".  vcheck lists seven constants
  `Coq.ssr.ssrunder.Under_rel.*`: they are the fields of a module type of the standard library
  that gets loaded, and no theorem here depends on them.
* `tools/wat2coq.py`: translates `standard.wat` into `Std.v` (one constructor per instruction;
  each function cites its lines).  `tools/costs2coq.py`: translates the tables of `cost.rs`
  into `CostTables.v`.  Both are syntactic; neither is proved.
* `Wasm.v`, the semantics of the WebAssembly subset, written from the core specification: i32/i64
  arithmetic and comparison, the v128 operations the library uses, memory access with bounds
  checks, `memory.copy`/`memory.fill`, structured control, `br_table`, calls, indirect calls, globals.
  Not in it: floats, tables that change, `memory.grow`, stack exhaustion (a call depth limit is an
  engine limit; where the code recurses without bound the theorems say so, C25).
* The hand translation of Rust into Gallina in the files below: each definition cites the lines it
  models and says what it leaves out.
* The specifications `Spec*.v`, `Rep.v`, `Clar.v` (types and values of the clarity crate) and
  `Typing.v` (what the type checker hands to the generator).

## 4. What is modelled and what is not

Modelled, by source file of /repo/clar2wasm/src:

| source | model | remarks |
|--------|-------|---------|
| `standard/standard.wat` | `Std.v`, generated | all functions |
| `wasm_generator.rs` | `Gen.v` (literals, frames, memory pages), `Emit.v` (locals, placeholders, read/write memory, call stack), `Equal.v`, `Lang.v` (traversal, functions, copy of results), `Calls.v` and `Lang.v` (public and read-only calls) | without: top-level expressions, trait definitions, duck typing of call results |
| `words/*.rs` | `Lang.v`, `HashWord.v`, `Ser.v`, `Deser.v`, `Stx.v`, `Filter.v`, `AtBlock.v`, `Outcall.v`, `Blocks.v`, `Print.v`, `Principal.v`, `Conv.v`, `Crypto.v` | see the constructors of `expr` in `Ast.v` for the words covered; the words not covered are listed in the notes of C46 |
| `serialize.rs`, `deserialize.rs` | `Ser.v`, `Deser.v` | complete for all types; not: `serialization_size` |
| `cost.rs` | `Cost.v`, `CostTables.v` | emission and tables; which word charges where is not modelled |
| `linker.rs` | `Ledger.v`, `Const.v`, `Stx.v` | variables, maps, tokens, contexts, savepoints, principals, at-block, constants, STX, block information (`Blocks.v`), print (`Print.v`), principal words (`Principal.v`), signature words and the keccak256 and sha512/256 imports (`Crypto.v`, with the curve and the two hash functions as parameters); not: contract-call's callee (a parameter), the sha512 import (no word calls it) |
| `wasm_utils.rs` | `Clar.v`, `Codec.v`, `TraitId.v` | readers, writers, sizes, arguments; not: `signature_from_string` |
| `error_mapping.rs` | `ErrMap.v` | complete |
| `initialize.rs`, `debug_msg.rs`, `tools.rs`, `lib.rs`, `bin/` | -- | entry points and debugging; only the order instantiate/run is reflected in the hypotheses |

Not modelled at all: the clarity crate (type checker, database; its value types, admission checks and STX accounts
appear as definitions in `Clar.v`/`Ledger.v`/`Stx.v`), wasmtime, walrus (allocation of function-local indices is
modelled as fresh numbering), the binary encoding of modules.

Simplifications that matter when reading a theorem:

* `HS`, the host's state, is a parameter of the semantics; imports are functions over it.  Theorems about
  the library hold for every host; theorems about chain state fix `HS := gctx` (`Ledger.v`).
* Cost tracking is off in the code emitted by `Emit.v`, `Lang.v`, `Ser.v`, `Deser.v` (it is an option of
  the generator); `Cost.v` models the code it adds.
* The literal memory is abstracted in `Lang.v`: a literal node carries its address, with the hypothesis
  that the bytes are there (`Gen.v`, C34 prove that the generator establishes this).

## 5. Testing the theorems

`tools/mutrun.py` applies an edit to one definition of the model in a scratch copy, rebuilds and records
the theorems that fail; `seeded/LOG.jsonl` has one line per attempt.  Edits that survived led to
the theorems named in `theorems_tightened`.
