(** * How the host turns a WebAssembly trap into a Clarity error.
    Models /repo/clar2wasm/src/error_mapping.rs. *)
From Coq Require Import ZArith String List Bool Lia.
Import ListNotations.
From Verif Require Import Wasm Std StdEnv Spec Bytes Mem MemFacts.
Open Scope string_scope.
Open Scope list_scope.
Open Scope Z_scope.

(** error_mapping.rs 20-99 *)
Inductive error_map :=
| NotClarityError | ArithmeticOverflow | ArithmeticUnderflow | DivisionByZero
| ArithmeticLog2Error | ArithmeticSqrtiError | BadTypeConstruction | Panic
| ShortReturnAssertionFailure | ArithmeticPowError | NameAlreadyUsed
| ShortReturnExpectedValueResponse | ShortReturnExpectedValueOptional | ShortReturnExpectedValue
| ArgumentCountMismatch | ArgumentCountAtLeast | ArgumentCountAtMost
| CostOverrunRuntime | CostOverrunReadCount | CostOverrunReadLength
| CostOverrunWriteCount | CostOverrunWriteLength | NotMapped.

(** error_mapping.rs 101-131 [From<i32> for ErrorMap] *)
Definition error_map_of (code : Z) : error_map :=
  match code with
  | -1 => NotClarityError
  | 0 => ArithmeticOverflow | 1 => ArithmeticUnderflow | 2 => DivisionByZero
  | 3 => ArithmeticLog2Error | 4 => ArithmeticSqrtiError | 5 => BadTypeConstruction
  | 6 => Panic | 7 => ShortReturnAssertionFailure | 8 => ArithmeticPowError
  | 9 => NameAlreadyUsed | 10 => ShortReturnExpectedValueResponse
  | 11 => ShortReturnExpectedValueOptional | 12 => ShortReturnExpectedValue
  | 13 => ArgumentCountMismatch | 14 => ArgumentCountAtLeast | 15 => ArgumentCountAtMost
  | 100 => CostOverrunRuntime | 101 => CostOverrunReadCount | 102 => CostOverrunReadLength
  | 103 => CostOverrunWriteCount | 104 => CostOverrunWriteLength
  | _ => NotMapped
  end.

(** The Clarity errors a contract's caller sees (clarity::vm::errors), with the
    payloads the mapping puts in them.  [V]: type of Clarity values. *)
Inductive clarity_error (V : Type) :=
| RtOverflow | RtUnderflow | RtDivisionByZero | RtArithmetic (msg : string)
| RtBadTypeConstruction | RtUnwrapFailure
| ShortAssertionFailed (v : V) | ShortExpectedValue (v : V)
| ShortExpectedErr (v : V)              (* ExpectedValue(Response{committed: false, v}) *)
| ShortExpectedNone                     (* ExpectedValue(Optional None) *)
| UncheckedNameAlreadyUsed (name : list Z)
| UncheckedIncorrectArgumentCount (expected got : Z)
| UncheckedRequiresAtLeast (expected got : Z)
| UncheckedRequiresAtMost (expected got : Z)
| CostOverflow
| WasmRuntime (k : trapkind)            (* Error::Wasm(WasmError::Runtime(e)) *)
| HostError (e : V).                    (* error raised by a host function, passed through *)
Arguments RtOverflow {V}. Arguments RtUnderflow {V}. Arguments RtDivisionByZero {V}.
Arguments RtArithmetic {V}. Arguments RtBadTypeConstruction {V}. Arguments RtUnwrapFailure {V}.
Arguments ShortAssertionFailed {V}. Arguments ShortExpectedValue {V}. Arguments ShortExpectedErr {V}.
Arguments ShortExpectedNone {V}. Arguments UncheckedNameAlreadyUsed {V}.
Arguments UncheckedIncorrectArgumentCount {V}. Arguments UncheckedRequiresAtLeast {V}.
Arguments UncheckedRequiresAtMost {V}. Arguments CostOverflow {V}. Arguments WasmRuntime {V}.
Arguments HostError {V}.

Section Resolve.
Context {HS V : Type}.

(** error_mapping.rs 326-331 [get_global_i32]; [None] is a host panic *)
Definition get_global_i32 (st : store HS) (n : string) : option Z :=
  match gget (sglob st) n with Some (VI32 z) => Some (sgn32 z) | _ => None end.

(** wasm_utils.rs 1163-1174 [read_bytes_from_wasm] *)
Definition read_bytes_from_wasm (m : mem) (off len : Z) : option (list Z) :=
  if (0 <=? off) && (0 <=? len) && (off + len <=? msize m)
  then Some (bytes_at m off (Z.to_nat len)) else None.

(** error_mapping.rs 345-353 [extract_expected_and_got] *)
Definition extract_expected_and_got (bs : list Z) : option (Z * Z) :=
  match bs with
  | b0 :: b1 :: b2 :: b3 :: b4 :: b5 :: b6 :: b7 :: _ =>
      Some (le_val [b0; b1; b2; b3], le_val [b4; b5; b6; b7])
  | _ => None
  end.

(** error_mapping.rs 401-421 [get_runtime_error_arg_lengths] *)
Definition get_runtime_error_arg_lengths (st : store HS) : option (Z * Z) :=
  match get_global_i32 st "runtime-error-arg-offset", get_global_i32 st "runtime-error-arg-len" with
  | Some off, Some len =>
      match read_bytes_from_wasm (smem st) off len with
      | Some bs => extract_expected_and_got bs
      | None => None
      end
  | _, _ => None
  end.

(** error_mapping.rs 364-390 [short_return_value]: reads the type string, then the value.
    [read_value ty m off]: parsing of the type ([signature_from_string]) and
    [read_from_wasm_indirect], given as a parameter here. *)
Variable read_value : list Z -> mem -> Z -> option V.
Definition short_return_value (st : store HS) : option V :=
  match get_global_i32 st "runtime-error-value-offset",
        get_global_i32 st "runtime-error-type-ser-offset",
        get_global_i32 st "runtime-error-type-ser-len" with
  | Some voff, Some toff, Some tlen =>
      match read_bytes_from_wasm (smem st) toff tlen with
      | Some ty => read_value ty (smem st) voff
      | None => None
      end
  | _, _, _ => None
  end.

(** error_mapping.rs 12-14 *)
Definition log2_message := "log2 must be passed a positive integer".
Definition sqrti_message := "sqrti must be passed a positive integer".
Definition pow_message := "Power argument to (pow ...) must be a u32 integer".

Definition omap {A B} (f : A -> B) (o : option A) : option B :=
  match o with Some a => Some (f a) | None => None end.

(** error_mapping.rs 208-312 [from_runtime_error_code]; [None]: the host panics *)
Definition from_runtime_error_code (st : store HS) : option (clarity_error V) :=
  match get_global_i32 st "runtime-error-code" with
  | None => None
  | Some code =>
      match error_map_of code with
      | NotClarityError => Some (WasmRuntime TUnreachable)
      | ArithmeticOverflow => Some RtOverflow
      | ArithmeticUnderflow => Some RtUnderflow
      | DivisionByZero => Some RtDivisionByZero
      | ArithmeticLog2Error => Some (RtArithmetic log2_message)
      | ArithmeticSqrtiError => Some (RtArithmetic sqrti_message)
      | BadTypeConstruction => Some RtBadTypeConstruction
      | Panic => Some RtUnwrapFailure
      | ShortReturnAssertionFailure => omap ShortAssertionFailed (short_return_value st)
      | ArithmeticPowError => Some (RtArithmetic pow_message)
      | NameAlreadyUsed =>
          match get_global_i32 st "runtime-error-arg-offset", get_global_i32 st "runtime-error-arg-len" with
          | Some off, Some len => omap UncheckedNameAlreadyUsed (read_bytes_from_wasm (smem st) off len)
          | _, _ => None
          end
      | ShortReturnExpectedValueResponse => omap ShortExpectedErr (short_return_value st)
      | ShortReturnExpectedValueOptional => Some ShortExpectedNone
      | ShortReturnExpectedValue => omap ShortExpectedValue (short_return_value st)
      | ArgumentCountMismatch =>
          omap (fun p => UncheckedIncorrectArgumentCount (fst p) (snd p)) (get_runtime_error_arg_lengths st)
      | ArgumentCountAtLeast =>
          omap (fun p => UncheckedRequiresAtLeast (fst p) (snd p)) (get_runtime_error_arg_lengths st)
      | ArgumentCountAtMost =>
          omap (fun p => UncheckedRequiresAtMost (fst p) (snd p)) (get_runtime_error_arg_lengths st)
      | CostOverrunRuntime | CostOverrunReadCount | CostOverrunReadLength
      | CostOverrunWriteCount | CostOverrunWriteLength => Some CostOverflow
      | NotMapped => None
      end
  end.

(** error_mapping.rs 133-193 [resolve_error].  [host]: the error value when the
    trap was raised by a host function returning a Clarity error. *)
Definition resolve_error (host : option V) (k : trapkind) (st : store HS) : option (clarity_error V) :=
  match host with
  | Some e => Some (HostError e)
  | None =>
      match k with
      | TUnreachable => from_runtime_error_code st
      | k => Some (WasmRuntime k)
      end
  end.
End Resolve.
