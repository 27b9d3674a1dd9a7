(** * Vocabulary of the specifications: how Clarity values are passed to WASM
    functions, and what "returns" / "aborts" mean. *)
From Coq Require Import ZArith String List Bool.
Import ListNotations.
From Verif Require Import Wasm Std StdEnv.
Open Scope Z_scope.

(** Clarity [uint] and [int] ranges *)
Definition is_u128 (n : Z) : Prop := 0 <= n < 2 ^ 128.
Definition is_i128 (n : Z) : Prop := - 2 ^ 127 <= n < 2 ^ 127.

(** A 128-bit integer is passed as two i64, low limb first
    (/repo/clar2wasm/src/wasm_generator.rs 205-206, wasm_utils.rs 95-107). *)
Definition u128 (n : Z) : list val := [VI64 (n mod 2 ^ 64); VI64 (n / 2 ^ 64)].
Definition i128 (n : Z) : list val := u128 (n mod 2 ^ 128).
Definition vbool (b : bool) : list val := [VI32 (if b then 1 else 0)].

Section Spec.
Context {HS : Type} (E : env HS).

(** [f args] returns [vs] and leaves memory, globals and host state unchanged. *)
Definition returns (f : string) (args : list val) (st : store HS) (vs : list val) : Prop :=
  calls E f args st (RVals vs st).

(** [f args] aborts; the only effect is the runtime error code, which the host
    turns into a Clarity error (/repo/clar2wasm/src/error_mapping.rs 94-245). *)
Definition aborts (f : string) (args : list val) (st : store HS) (code : Z) : Prop :=
  calls E f args st
    (RTrap TUnreachable (with_glob st (gset (sglob st) "runtime-error-code" (VI32 code)))).
End Spec.

Definition err_overflow := 0.
Definition err_underflow := 1.
Definition err_div_zero := 2.
Definition err_log := 3.
Definition err_sqrt := 4.
Definition err_buff_len := 5.
Definition err_panic := 6.
Definition err_pow := 8.

(** memory [m] contains the bytes [bs] at address [a], inside the linear memory
    (at most 2^32 bytes, WebAssembly's limit) *)
Definition holds (m : mem) (a : Z) (bs : list Z) : Prop :=
  0 <= a /\ a + Z.of_nat (length bs) <= msize m <= 2 ^ 32 /\ bytes_at m a (length bs) = bs.

(** length of a byte sequence, as a WASM i32 *)
Definition vlen (bs : list Z) : val := VI32 (Z.of_nat (length bs)).

(** an optional 128-bit integer is returned as a presence flag and two i64 (zero if none) *)
Definition vopt (f : Z -> list val) (o : option Z) : list val :=
  match o with Some n => VI32 1 :: f n | None => [VI32 0; VI64 0; VI64 0] end.

(** memory [m'] differs from [m] only inside the [n] bytes from [a] *)
Definition only_changes (m m' : mem) (a n : Z) : Prop :=
  msize m' = msize m /\ forall x, x < a \/ a + n <= x -> rd m' x = rd m x.

(** ** Full statements of integer properties (specification only) *)

(** an arithmetic operation on two integers: exact when the result fits, abort otherwise *)
Definition exact_or_aborts {HS} (E : env HS) (f : string) (rep : Z -> list val) (fits : Z -> Prop)
  (a b r code : Z) : Prop :=
  forall st : store HS,
    (fits r -> returns E f (rep a ++ rep b) st (rep r)) /\
    (~ fits r -> aborts E f (rep a ++ rep b) st code).

Definition sub_uint_correct {HS} (E : env HS) : Prop := forall a b, is_u128 a -> is_u128 b ->
  exact_or_aborts E "stdlib.sub-uint" u128 is_u128 a b (a - b) err_underflow.
Definition mul_int_correct {HS} (E : env HS) : Prop := forall a b, is_i128 a -> is_i128 b ->
  exact_or_aborts E "stdlib.mul-int" i128 is_i128 a b (a * b) err_overflow.
(** a negative exponent is an error unless the base is 0 or 1 *)
Definition pow_int_correct {HS} (E : env HS) : Prop := forall a b, is_i128 a -> is_i128 b -> 0 <= b ->
  exact_or_aborts E "stdlib.pow-int" i128 is_i128 a b (a ^ b)
    (if (127 <? b) || ((126 <? b) && (0 <=? a)) then err_pow else err_overflow).

(** comparison operators of Clarity and the relations they must decide *)
Definition cmps : list (string * (Z -> Z -> bool)) := [("lt", Z.ltb); ("gt", Z.gtb); ("le", Z.leb); ("ge", Z.geb)]%string.
