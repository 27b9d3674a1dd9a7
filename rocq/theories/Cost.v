(** * Cost metering code: /repo/clar2wasm/src/cost.rs *)
From Coq Require Import ZArith String List Bool.
Import ListNotations.
From Verif Require Import Wasm StdEnv.
Open Scope string_scope.
Open Scope Z_scope.

(** cost.rs 291-295 [Scalar]: a u32 known when compiling, or an i32 local *)
Inductive scalar := SCompile (c : Z) | SRun (l : nat).

(** cost.rs 314-341 [scalar_get] (the check that the local is an i32 is left out:
    every caller passes a local it allocated as i32) *)
Definition scalar_get (n : scalar) : list instr :=
  match n with
  | SCompile c => [Const (VI64 c)]
  | SRun l => [LGet l; ExtU]
  end.

(** cost.rs 362-380 [Caf] *)
Inductive caf := CConst (c : Z) | CLinear (a b : Z) | CLogN (a b : Z) | CNLogN (a b : Z) | CNone.

(** cost.rs 352-359 [WordCost] *)
Record word_cost := mkcost {
  wc_runtime : caf; wc_read_count : caf; wc_read_length : caf;
  wc_write_count : caf; wc_write_length : caf }.

(** the tail shared by the four emitters (e.g. 491-507): global -= cost; error if negative *)
Definition overrun_check (global : string) (err_code : Z) : list instr :=
  [B64 Sub; GSet global; GGet global; Const (VI64 0); R64 LtS;
   If 0 0 [Const (VI32 err_code); Call "stdlib.runtime-error"] []].

(** cost.rs 474-510 [caf_const] *)
Definition caf_const (global : string) (err_code : Z) (cost : scalar) : list instr :=
  (GGet global :: scalar_get cost) ++ overrun_check global err_code.

(** cost.rs 512-558 [caf_linear] *)
Definition caf_linear (global : string) (err_code : Z) (n : scalar) (a b : Z) : list instr :=
  (GGet global :: scalar_get n) ++ [Const (VI64 a); B64 Mul; Const (VI64 b); B64 Add]
  ++ overrun_check global err_code.

(** cost.rs 560-610 [caf_logn] *)
Definition caf_logn (global : string) (err_code : Z) (n : scalar) (a b : Z) : list instr :=
  (GGet global :: Const (VI64 63) :: scalar_get n) ++
  [Clz64; B64 Sub; Const (VI64 a); B64 Mul; Const (VI64 b); B64 Add]
  ++ overrun_check global err_code.

(** cost.rs 612-665 [caf_nlogn] *)
Definition caf_nlogn (global : string) (err_code : Z) (n : scalar) (a b : Z) : list instr :=
  (GGet global :: Const (VI64 63) :: scalar_get n) ++ [Clz64; B64 Sub] ++
  scalar_get n ++ [B64 Mul; Const (VI64 a); B64 Mul; Const (VI64 b); B64 Add]
  ++ overrun_check global err_code.

(** cost.rs 432-471 [emit_with_caf] *)
Definition emit_with_caf (params : caf) (global : string) (err_code : Z) (n : scalar) : list instr :=
  match params with
  | CConst cost => caf_const global err_code (SCompile cost)
  | CLinear a b => caf_linear global err_code n a b
  | CLogN a b => caf_logn global err_code n a b
  | CNLogN a b => caf_nlogn global err_code n a b
  | CNone => []
  end.

(** cost.rs 383-430 [ChargeContext::emit]; error codes: error_mapping.rs 83-95 *)
Definition emit_cost (cost : word_cost) (n : scalar) : list instr :=
  emit_with_caf (wc_runtime cost) "cost-runtime" 100 n ++
  emit_with_caf (wc_read_count cost) "cost-read-count" 101 n ++
  emit_with_caf (wc_read_length cost) "cost-read-length" 102 n ++
  emit_with_caf (wc_write_count cost) "cost-write-count" 103 n ++
  emit_with_caf (wc_write_length cost) "cost-write-length" 104 n.

(** cost.rs 249-279 [charge]: look the word up in the table of the contract's Clarity
    version; [None] is the [InternalError] "do not exists in costs table" *)
Definition charge (table : list (string * word_cost)) (word : string) (n : scalar) : option (list instr) :=
  match assoc word table with
  | Some cost => Some (emit_cost cost n)
  | None => None
  end.

(** the globals of the standard library: standard.wat 342-348 (the imports of the cost
    globals, 335-339, are commented out) *)
Definition standard_globals : list string :=
  ["stack-pointer"; "runtime-error-code"; "runtime-error-arg-offset"; "runtime-error-arg-len";
   "runtime-error-value-offset"; "runtime-error-type-ser-offset"; "runtime-error-type-ser-len"].

(** wasm_generator.rs 272-286 [get_global] *)
Definition get_global (globals : list string) (name : string) : option string :=
  find (fun other => String.eqb name other) globals.

(** wasm_generator.rs 350-362 [with_cost_code]: the five cost globals are looked up in the
    module [Self::new] loaded, the standard library *)
Definition with_cost_code (module_globals : list string) : option (list string) :=
  match get_global module_globals "cost-runtime", get_global module_globals "cost-read-count",
        get_global module_globals "cost-read-length", get_global module_globals "cost-write-count",
        get_global module_globals "cost-write-length" with
  | Some a, Some b, Some c, Some d, Some e => Some [a; b; c; d; e]
  | _, _, _, _, _ => None
  end.
