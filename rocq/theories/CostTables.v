(** * Word cost tables, generated by tools/costs2coq.py from
    /repo/clar2wasm/src/cost/clar1.rs, clar2.rs and clar3.rs ([WORD_COSTS]).
    The key is the string returned by the word's [name()]. *)
From Coq Require Import ZArith String List.
Import ListNotations.
From Verif Require Import Cost.
Open Scope Z_scope.
Open Scope string_scope.

(** cost/clar1.rs: 85 words *)
Definition clar1_costs : list (string * word_cost) := [
  ("+", mkcost (CLinear 1000 1000) CNone CNone CNone CNone);
  ("-", mkcost (CLinear 1000 1000) CNone CNone CNone CNone);
  ("*", mkcost (CLinear 1000 1000) CNone CNone CNone CNone);
  ("/", mkcost (CLinear 1000 1000) CNone CNone CNone CNone);
  ("log2", mkcost (CConst 1000) CNone CNone CNone CNone);
  ("mod", mkcost (CConst 1000) CNone CNone CNone CNone);
  ("pow", mkcost (CConst 1000) CNone CNone CNone CNone);
  ("sqrti", mkcost (CConst 1000) CNone CNone CNone CNone);
  (">", mkcost (CConst 1000) CNone CNone CNone CNone);
  (">=", mkcost (CConst 1000) CNone CNone CNone CNone);
  ("<", mkcost (CConst 1000) CNone CNone CNone CNone);
  ("<=", mkcost (CConst 1000) CNone CNone CNone CNone);
  ("or", mkcost (CLinear 1000 1000) CNone CNone CNone CNone);
  ("and", mkcost (CLinear 1000 1000) CNone CNone CNone CNone);
  ("not", mkcost (CConst 1000) CNone CNone CNone CNone);
  ("to-int", mkcost (CConst 1000) CNone CNone CNone CNone);
  ("to-uint", mkcost (CConst 1000) CNone CNone CNone CNone);
  ("hash160", mkcost (CLinear 1000 1000) CNone CNone CNone CNone);
  ("keccak256", mkcost (CLinear 1 127) CNone CNone CNone CNone);
  ("sha256", mkcost (CLinear 1000 1000) CNone CNone CNone CNone);
  ("sha512", mkcost (CLinear 1000 1000) CNone CNone CNone CNone);
  ("sha512/256", mkcost (CLinear 1000 1000) CNone CNone CNone CNone);
  ("stx-burn?", mkcost CNone CNone CNone CNone CNone);
  ("stx-get-balance", mkcost (CConst 1000) (CConst 1) (CConst 1) CNone CNone);
  ("let", mkcost (CLinear 1000 1000) CNone CNone CNone CNone);
  ("at-block", mkcost (CConst 1000) (CConst 1) (CConst 1) CNone CNone);
  ("get-block-info?", mkcost (CConst 1000) (CConst 1) (CConst 1) CNone CNone);
  ("get-stacks-block-info?", mkcost (CConst 1000) (CConst 1) (CConst 1) CNone CNone);
  ("get-tenure-info?", mkcost CNone CNone CNone CNone CNone);
  ("asserts!", mkcost (CConst 1000) CNone CNone CNone CNone);
  ("filter", mkcost (CConst 1000) CNone CNone CNone CNone);
  ("if", mkcost (CConst 1000) CNone CNone CNone CNone);
  ("match", mkcost (CConst 1000) CNone CNone CNone CNone);
  ("try!", mkcost (CConst 1000) CNone CNone CNone CNone);
  ("unwrap!", mkcost (CConst 1000) CNone CNone CNone CNone);
  ("unwrap-err!", mkcost (CConst 1000) CNone CNone CNone CNone);
  ("unwrap-err-panic", mkcost (CConst 1000) CNone CNone CNone CNone);
  ("unwrap-panic", mkcost (CConst 1000) CNone CNone CNone CNone);
  ("as-contract", mkcost (CConst 138) CNone CNone CNone CNone);
  ("contract-call?", mkcost (CConst 1000) CNone CNone CNone CNone);
  ("begin", mkcost (CConst 1000) CNone CNone CNone CNone);
  ("var-get", mkcost (CLinear 1000 1000) (CConst 1) (CLinear 1 1) CNone CNone);
  ("var-set", mkcost (CLinear 1000 1000) CNone CNone (CConst 1) (CLinear 1 1));
  ("default-to", mkcost (CConst 1000) CNone CNone CNone CNone);
  ("ok", mkcost (CConst 1000) CNone CNone CNone CNone);
  ("err", mkcost (CConst 1000) CNone CNone CNone CNone);
  ("some", mkcost (CConst 1000) CNone CNone CNone CNone);
  ("index-of?", mkcost (CLinear 1000 1000) CNone CNone CNone CNone);
  ("index-of", mkcost (CLinear 1000 1000) CNone CNone CNone CNone);
  ("is-eq", mkcost (CLinear 1000 1000) CNone CNone CNone CNone);
  ("map-get?", mkcost (CLinear 1000 1000) (CConst 1) (CLinear 1 1) CNone CNone);
  ("map-set", mkcost (CLinear 1000 1000) (CConst 1) CNone (CConst 1) (CLinear 1 1));
  ("map-insert", mkcost (CLinear 1000 1000) (CConst 1) CNone (CConst 1) (CLinear 1 1));
  ("map-delete", mkcost (CLinear 1000 1000) (CConst 1) CNone (CConst 1) (CLinear 1 1));
  ("contract-of", mkcost (CConst 1000) CNone CNone CNone CNone);
  ("is-none", mkcost (CConst 1000) CNone CNone CNone CNone);
  ("is-some", mkcost (CConst 1000) CNone CNone CNone CNone);
  ("principal-of?", mkcost (CConst 1000) CNone CNone CNone CNone);
  ("print", mkcost (CLinear 1000 1000) CNone CNone CNone CNone);
  ("is-ok", mkcost (CConst 1000) CNone CNone CNone CNone);
  ("is-err", mkcost (CConst 1000) CNone CNone CNone CNone);
  ("secp256k1-recover?", mkcost (CConst 1000) CNone CNone CNone CNone);
  ("secp256k1-verify", mkcost (CConst 1000) CNone CNone CNone CNone);
  ("append", mkcost (CLinear 1000 1000) CNone CNone CNone CNone);
  ("as-max-len?", mkcost (CConst 1000) CNone CNone CNone CNone);
  ("concat", mkcost (CLinear 1000 1000) CNone CNone CNone CNone);
  ("element-at", mkcost (CConst 1000) CNone CNone CNone CNone);
  ("element-at?", mkcost (CConst 1000) CNone CNone CNone CNone);
  ("fold", mkcost (CConst 1000) CNone CNone CNone CNone);
  ("len", mkcost (CConst 1000) CNone CNone CNone CNone);
  ("list", mkcost (CLinear 1000 1000) CNone CNone CNone CNone);
  ("map", mkcost (CLinear 1000 1000) CNone CNone CNone CNone);
  ("stx-transfer?", mkcost (CConst 1000) (CConst 1) (CConst 1) (CConst 1) (CConst 1));
  ("ft-mint?", mkcost (CConst 1000) (CConst 2) (CConst 1) (CConst 2) (CConst 1));
  ("ft-burn?", mkcost (CConst 1000) (CConst 2) (CConst 1) (CConst 2) (CConst 1));
  ("ft-transfer?", mkcost (CConst 1000) (CConst 2) (CConst 1) (CConst 2) (CConst 1));
  ("ft-get-supply", mkcost (CConst 1000) (CConst 1) (CConst 1) CNone CNone);
  ("ft-get-balance", mkcost (CConst 1000) (CConst 1) (CConst 1) CNone CNone);
  ("nft-mint?", mkcost (CLinear 1000 1000) (CConst 1) (CConst 1) (CConst 1) (CConst 1));
  ("nft-burn?", mkcost (CLinear 1000 1000) (CConst 1) (CConst 1) (CConst 1) (CConst 1));
  ("nft-transfer?", mkcost (CLinear 1000 1000) (CConst 1) (CConst 1) (CConst 1) (CConst 1));
  ("nft-get-owner?", mkcost (CLinear 1000 1000) (CConst 1) (CConst 1) CNone CNone);
  ("tuple", mkcost (CNLogN 1000 1000) CNone CNone CNone CNone);
  ("get", mkcost (CLogN 1000 1000) CNone CNone CNone CNone);
  ("merge", mkcost (CLinear 1000 408) CNone CNone CNone CNone)].

(** cost/clar2.rs: 86 words *)
Definition clar2_costs : list (string * word_cost) := [
  ("+", mkcost (CLinear 14 157) CNone CNone CNone CNone);
  ("-", mkcost (CLinear 14 157) CNone CNone CNone CNone);
  ("*", mkcost (CLinear 14 157) CNone CNone CNone CNone);
  ("/", mkcost (CLinear 14 157) CNone CNone CNone CNone);
  ("log2", mkcost (CConst 170) CNone CNone CNone CNone);
  ("mod", mkcost (CConst 170) CNone CNone CNone CNone);
  ("pow", mkcost (CConst 170) CNone CNone CNone CNone);
  ("sqrti", mkcost (CConst 170) CNone CNone CNone CNone);
  (">", mkcost (CConst 170) CNone CNone CNone CNone);
  (">=", mkcost (CConst 170) CNone CNone CNone CNone);
  ("<", mkcost (CConst 170) CNone CNone CNone CNone);
  ("<=", mkcost (CConst 170) CNone CNone CNone CNone);
  ("or", mkcost (CLinear 3 149) CNone CNone CNone CNone);
  ("and", mkcost (CLinear 3 149) CNone CNone CNone CNone);
  ("not", mkcost (CConst 170) CNone CNone CNone CNone);
  ("to-int", mkcost (CConst 170) CNone CNone CNone CNone);
  ("to-uint", mkcost (CConst 170) CNone CNone CNone CNone);
  ("hash160", mkcost (CLinear 1 201) CNone CNone CNone CNone);
  ("keccak256", mkcost (CLinear 1 221) CNone CNone CNone CNone);
  ("sha256", mkcost (CLinear 1 100) CNone CNone CNone CNone);
  ("sha512", mkcost (CLinear 1 176) CNone CNone CNone CNone);
  ("sha512/256", mkcost (CLinear 1 188) CNone CNone CNone CNone);
  ("stx-burn?", mkcost CNone CNone CNone CNone CNone);
  ("stx-get-balance", mkcost (CConst 1385) (CConst 1) (CConst 1) CNone CNone);
  ("let", mkcost (CLinear 146 862) CNone CNone CNone CNone);
  ("at-block", mkcost (CConst 210) (CConst 1) (CConst 1) CNone CNone);
  ("get-block-info?", mkcost (CConst 6321) (CConst 1) (CConst 1) CNone CNone);
  ("get-stacks-block-info?", mkcost (CConst 6321) (CConst 1) (CConst 1) CNone CNone);
  ("get-tenure-info?", mkcost CNone CNone CNone CNone CNone);
  ("asserts!", mkcost (CConst 170) CNone CNone CNone CNone);
  ("filter", mkcost (CConst 460) CNone CNone CNone CNone);
  ("if", mkcost (CConst 200) CNone CNone CNone CNone);
  ("match", mkcost (CConst 287) CNone CNone CNone CNone);
  ("try!", mkcost (CConst 287) CNone CNone CNone CNone);
  ("unwrap!", mkcost (CConst 287) CNone CNone CNone CNone);
  ("unwrap-err!", mkcost (CConst 287) CNone CNone CNone CNone);
  ("unwrap-err-panic", mkcost (CConst 339) CNone CNone CNone CNone);
  ("unwrap-panic", mkcost (CConst 339) CNone CNone CNone CNone);
  ("as-contract", mkcost (CConst 138) CNone CNone CNone CNone);
  ("contract-call?", mkcost (CConst 153) CNone CNone CNone CNone);
  ("begin", mkcost (CConst 202) CNone CNone CNone CNone);
  ("var-get", mkcost (CLinear 1 543) (CConst 1) (CLinear 1 1) CNone CNone);
  ("var-set", mkcost (CLinear 5 691) CNone CNone (CConst 1) (CLinear 1 1));
  ("default-to", mkcost (CConst 287) CNone CNone CNone CNone);
  ("ok", mkcost (CConst 230) CNone CNone CNone CNone);
  ("err", mkcost (CConst 230) CNone CNone CNone CNone);
  ("some", mkcost (CConst 230) CNone CNone CNone CNone);
  ("index-of?", mkcost (CLinear 1 243) CNone CNone CNone CNone);
  ("index-of", mkcost (CLinear 1 243) CNone CNone CNone CNone);
  ("is-eq", mkcost (CLinear 7 172) CNone CNone CNone CNone);
  ("map-get?", mkcost (CLinear 1 1539) (CConst 1) (CLinear 1 1) CNone CNone);
  ("map-set", mkcost (CLinear 4 2204) (CConst 1) CNone (CConst 1) (CLinear 1 1));
  ("map-insert", mkcost (CLinear 4 2204) (CConst 1) CNone (CConst 1) (CLinear 1 1));
  ("map-delete", mkcost (CLinear 4 2204) (CConst 1) CNone (CConst 1) (CLinear 1 1));
  ("contract-of", mkcost (CConst 13400) CNone CNone CNone CNone);
  ("is-none", mkcost (CConst 287) CNone CNone CNone CNone);
  ("is-some", mkcost (CConst 287) CNone CNone CNone CNone);
  ("is-standard", mkcost (CConst 127) CNone CNone CNone CNone);
  ("principal-of?", mkcost (CConst 999) CNone CNone CNone CNone);
  ("print", mkcost (CLinear 3 1413) CNone CNone CNone CNone);
  ("is-ok", mkcost (CConst 287) CNone CNone CNone CNone);
  ("is-err", mkcost (CConst 287) CNone CNone CNone CNone);
  ("secp256k1-recover?", mkcost (CConst 14344) CNone CNone CNone CNone);
  ("secp256k1-verify", mkcost (CConst 13540) CNone CNone CNone CNone);
  ("append", mkcost (CLinear 71 176) CNone CNone CNone CNone);
  ("as-max-len?", mkcost (CConst 475) CNone CNone CNone CNone);
  ("concat", mkcost (CLinear 75 244) CNone CNone CNone CNone);
  ("element-at", mkcost (CConst 619) CNone CNone CNone CNone);
  ("element-at?", mkcost (CConst 619) CNone CNone CNone CNone);
  ("fold", mkcost (CConst 483) CNone CNone CNone CNone);
  ("len", mkcost (CConst 486) CNone CNone CNone CNone);
  ("list", mkcost (CLinear 14 198) CNone CNone CNone CNone);
  ("map", mkcost (CLinear 1210 3314) CNone CNone CNone CNone);
  ("stx-transfer?", mkcost (CConst 1430) (CConst 1) (CConst 1) (CConst 1) (CConst 1));
  ("ft-mint?", mkcost (CConst 1645) (CConst 2) (CConst 1) (CConst 2) (CConst 1));
  ("ft-burn?", mkcost (CConst 612) (CConst 2) (CConst 1) (CConst 2) (CConst 1));
  ("ft-transfer?", mkcost (CConst 612) (CConst 2) (CConst 1) (CConst 2) (CConst 1));
  ("ft-get-supply", mkcost (CConst 483) (CConst 1) (CConst 1) CNone CNone);
  ("ft-get-balance", mkcost (CConst 547) (CConst 1) (CConst 1) CNone CNone);
  ("nft-mint?", mkcost (CLinear 9 795) (CConst 1) (CConst 1) (CConst 1) (CConst 1));
  ("nft-burn?", mkcost (CLinear 9 795) (CConst 1) (CConst 1) (CConst 1) (CConst 1));
  ("nft-transfer?", mkcost (CLinear 9 795) (CConst 1) (CConst 1) (CConst 1) (CConst 1));
  ("nft-get-owner?", mkcost (CLinear 9 795) (CConst 1) (CConst 1) CNone CNone);
  ("tuple", mkcost (CNLogN 11 1101) CNone CNone CNone CNone);
  ("get", mkcost (CNLogN 4 1780) CNone CNone CNone CNone);
  ("merge", mkcost (CLinear 4 646) CNone CNone CNone CNone)].

(** cost/clar3.rs: 109 words *)
Definition clar3_costs : list (string * word_cost) := [
  ("+", mkcost (CLinear 11 125) CNone CNone CNone CNone);
  ("-", mkcost (CLinear 11 125) CNone CNone CNone CNone);
  ("*", mkcost (CLinear 13 125) CNone CNone CNone CNone);
  ("/", mkcost (CLinear 13 125) CNone CNone CNone CNone);
  ("log2", mkcost (CConst 133) CNone CNone CNone CNone);
  ("mod", mkcost (CConst 141) CNone CNone CNone CNone);
  ("pow", mkcost (CConst 143) CNone CNone CNone CNone);
  ("sqrti", mkcost (CConst 142) CNone CNone CNone CNone);
  ("bit-and", mkcost (CLinear 15 129) CNone CNone CNone CNone);
  ("bit-or", mkcost (CLinear 15 129) CNone CNone CNone CNone);
  ("bit-xor", mkcost (CLinear 15 129) CNone CNone CNone CNone);
  ("bit-not", mkcost (CConst 147) CNone CNone CNone CNone);
  ("bit-shift-left", mkcost (CConst 167) CNone CNone CNone CNone);
  ("bit-shift-right", mkcost (CConst 167) CNone CNone CNone CNone);
  ("buff-to-int-le", mkcost (CConst 141) CNone CNone CNone CNone);
  ("buff-to-int-be", mkcost (CConst 141) CNone CNone CNone CNone);
  ("buff-to-uint-le", mkcost (CConst 141) CNone CNone CNone CNone);
  ("buff-to-uint-be", mkcost (CConst 141) CNone CNone CNone CNone);
  (">", mkcost (CLinear 7 128) CNone CNone CNone CNone);
  (">=", mkcost (CLinear 7 128) CNone CNone CNone CNone);
  ("<", mkcost (CLinear 7 128) CNone CNone CNone CNone);
  ("<=", mkcost (CLinear 7 128) CNone CNone CNone CNone);
  ("or", mkcost (CLinear 3 120) CNone CNone CNone CNone);
  ("and", mkcost (CLinear 3 120) CNone CNone CNone CNone);
  ("not", mkcost (CConst 138) CNone CNone CNone CNone);
  ("int-to-ascii", mkcost (CConst 147) CNone CNone CNone CNone);
  ("int-to-utf8", mkcost (CConst 181) CNone CNone CNone CNone);
  ("string-to-int?", mkcost (CConst 168) CNone CNone CNone CNone);
  ("string-to-uint?", mkcost (CConst 168) CNone CNone CNone CNone);
  ("to-int", mkcost (CConst 135) CNone CNone CNone CNone);
  ("to-uint", mkcost (CConst 135) CNone CNone CNone CNone);
  ("hash160", mkcost (CLinear 1 188) CNone CNone CNone CNone);
  ("keccak256", mkcost (CLinear 1 127) CNone CNone CNone CNone);
  ("sha256", mkcost (CLinear 1 100) CNone CNone CNone CNone);
  ("sha512", mkcost (CLinear 1 176) CNone CNone CNone CNone);
  ("sha512/256", mkcost (CLinear 1 56) CNone CNone CNone CNone);
  ("principal-destruct?", mkcost (CConst 314) CNone CNone CNone CNone);
  ("is-standard", mkcost (CConst 127) CNone CNone CNone CNone);
  ("stx-burn?", mkcost CNone CNone CNone CNone CNone);
  ("stx-account", mkcost (CConst 4654) (CConst 1) (CConst 1) CNone CNone);
  ("stx-get-balance", mkcost (CConst 4294) (CConst 1) (CConst 1) CNone CNone);
  ("let", mkcost (CLinear 117 178) CNone CNone CNone CNone);
  ("at-block", mkcost (CConst 1327) (CConst 1) (CConst 1) CNone CNone);
  ("get-block-info?", mkcost (CConst 6321) (CConst 1) (CConst 1) CNone CNone);
  ("get-burn-block-info?", mkcost (CConst 96479) (CConst 1) (CConst 1) CNone CNone);
  ("get-stacks-block-info?", mkcost (CConst 6321) (CConst 1) (CConst 1) CNone CNone);
  ("get-tenure-info?", mkcost CNone CNone CNone CNone CNone);
  ("asserts!", mkcost (CConst 128) CNone CNone CNone CNone);
  ("filter", mkcost (CConst 407) CNone CNone CNone CNone);
  ("if", mkcost (CConst 168) CNone CNone CNone CNone);
  ("match", mkcost (CConst 264) CNone CNone CNone CNone);
  ("try!", mkcost (CConst 240) CNone CNone CNone CNone);
  ("unwrap!", mkcost (CConst 252) CNone CNone CNone CNone);
  ("unwrap-err!", mkcost (CConst 248) CNone CNone CNone CNone);
  ("unwrap-err-panic", mkcost (CConst 302) CNone CNone CNone CNone);
  ("unwrap-panic", mkcost (CConst 274) CNone CNone CNone CNone);
  ("from-consensus-buff?", mkcost (CNLogN 3 185) CNone CNone CNone CNone);
  ("to-consensus-buff?", mkcost (CLinear 1 233) CNone CNone CNone CNone);
  ("as-contract", mkcost (CConst 138) CNone CNone CNone CNone);
  ("contract-call?", mkcost (CConst 134) CNone CNone CNone CNone);
  ("begin", mkcost (CConst 151) CNone CNone CNone CNone);
  ("var-get", mkcost (CLinear 1 151) (CConst 1) (CLinear 1 1) CNone CNone);
  ("var-set", mkcost (CLinear 5 655) CNone CNone (CConst 1) (CLinear 1 1));
  ("default-to", mkcost (CConst 268) CNone CNone CNone CNone);
  ("ok", mkcost (CConst 199) CNone CNone CNone CNone);
  ("err", mkcost (CConst 199) CNone CNone CNone CNone);
  ("some", mkcost (CConst 199) CNone CNone CNone CNone);
  ("index-of?", mkcost (CLinear 1 211) CNone CNone CNone CNone);
  ("index-of", mkcost (CLinear 1 211) CNone CNone CNone CNone);
  ("is-eq", mkcost (CLinear 1 151) CNone CNone CNone CNone);
  ("map-get?", mkcost (CLinear 1 1025) (CConst 1) (CLinear 1 1) CNone CNone);
  ("map-set", mkcost (CLinear 4 1899) (CConst 1) CNone (CConst 1) (CLinear 1 1));
  ("map-insert", mkcost (CLinear 4 1899) (CConst 1) CNone (CConst 1) (CLinear 1 1));
  ("map-delete", mkcost (CLinear 4 1899) (CConst 1) CNone (CConst 1) (CLinear 1 1));
  ("contract-of", mkcost (CConst 13400) CNone CNone CNone CNone);
  ("is-none", mkcost (CConst 214) CNone CNone CNone CNone);
  ("is-some", mkcost (CConst 195) CNone CNone CNone CNone);
  ("principal-construct?", mkcost (CConst 398) CNone CNone CNone CNone);
  ("principal-of?", mkcost (CConst 984) CNone CNone CNone CNone);
  ("print", mkcost (CLinear 15 1458) CNone CNone CNone CNone);
  ("is-ok", mkcost (CConst 258) CNone CNone CNone CNone);
  ("is-err", mkcost (CConst 245) CNone CNone CNone CNone);
  ("secp256k1-recover?", mkcost (CConst 8655) CNone CNone CNone CNone);
  ("secp256k1-verify", mkcost (CConst 8349) CNone CNone CNone CNone);
  ("append", mkcost (CLinear 73 285) CNone CNone CNone CNone);
  ("as-max-len?", mkcost (CConst 475) CNone CNone CNone CNone);
  ("concat", mkcost (CLinear 37 220) CNone CNone CNone CNone);
  ("element-at", mkcost (CConst 498) CNone CNone CNone CNone);
  ("element-at?", mkcost (CConst 498) CNone CNone CNone CNone);
  ("fold", mkcost (CConst 460) CNone CNone CNone CNone);
  ("len", mkcost (CConst 429) CNone CNone CNone CNone);
  ("list", mkcost (CLinear 14 164) CNone CNone CNone CNone);
  ("map", mkcost (CLinear 1198 3067) CNone CNone CNone CNone);
  ("replace-at?", mkcost (CLinear 1 561) CNone CNone CNone CNone);
  ("slice?", mkcost (CConst 498) CNone CNone CNone CNone);
  ("stx-transfer?", mkcost (CConst 4640) (CConst 1) (CConst 1) (CConst 1) (CConst 1));
  ("stx-transfer-memo?", mkcost (CConst 4709) (CConst 1) (CConst 1) (CConst 1) (CConst 1));
  ("ft-mint?", mkcost (CConst 1479) (CConst 2) (CConst 1) (CConst 2) (CConst 1));
  ("ft-burn?", mkcost (CConst 549) (CConst 2) (CConst 1) (CConst 2) (CConst 1));
  ("ft-transfer?", mkcost (CConst 549) (CConst 2) (CConst 1) (CConst 2) (CConst 1));
  ("ft-get-supply", mkcost (CConst 420) (CConst 1) (CConst 1) CNone CNone);
  ("ft-get-balance", mkcost (CConst 479) (CConst 1) (CConst 1) CNone CNone);
  ("nft-mint?", mkcost (CLinear 9 575) (CConst 1) (CConst 1) (CConst 1) (CConst 1));
  ("nft-burn?", mkcost (CLinear 9 572) (CConst 1) (CConst 1) (CConst 1) (CConst 1));
  ("nft-transfer?", mkcost (CLinear 9 572) (CConst 1) (CConst 1) (CConst 1) (CConst 1));
  ("nft-get-owner?", mkcost (CLinear 9 795) (CConst 1) (CConst 1) CNone CNone);
  ("tuple", mkcost (CNLogN 10 1876) CNone CNone CNone CNone);
  ("get", mkcost (CNLogN 4 1736) CNone CNone CNone CNone);
  ("merge", mkcost (CLinear 4 408) CNone CNone CNone CNone)].
