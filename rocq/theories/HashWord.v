(** * The words sha256, sha512 and hash160
    Models /repo/clar2wasm/src/words/hashing.rs 9-67 [traverse_hash] and the [visit]
    functions at 78-90, 101-113, 188-199.
    Simplification: cost tracking is off, as in Emit.v. *)
From Coq Require Import ZArith String List Bool Lia.
Import ListNotations.
From Verif Require Import Wasm Gen Clar Emit.
Open Scope string_scope.
Open Scope list_scope.
Open Scope Z_scope.

Inductive hword := WSha256 | WSha512 | WHash160.
(** type of the argument: int or uint, or (buff n) *)
Inductive harg := HInt | HBuf (n : Z).

(** 19-23 *)
Definition buffer_size (w : hword) : Z := match w with WHash160 => 20 | WSha512 => 64 | WSha256 => 32 end.
(** 87-89, 111-112, 198 *)
Definition work_space (w : hword) : Z := match w with WHash160 | WSha256 => 64 + 8 + 289 | WSha512 => 128 + 16 + 705 end.
(** the name of the function called, 56-60 *)
Definition hash_func (w : hword) (a : harg) : string :=
  match w, a with
  | WSha256, HInt => "stdlib.sha256-int" | WSha256, HBuf _ => "stdlib.sha256-buf"
  | WSha512, HInt => "stdlib.sha512-int" | WSha512, HBuf _ => "stdlib.sha512-buf"
  | WHash160, HInt => "stdlib.hash160-int" | WHash160, HBuf _ => "stdlib.hash160-buf"
  end.
(** 24-64: effect on the memory budget, and code *)
Definition hash_steps (w : hword) (a : harg) : list gstep :=
  [GFrame (call_stack_size (TBuff (buffer_size w)) false true);
   GWork (match a with HInt => work_space w | HBuf n => n + work_space w end)].
Definition traverse_hash (w : hword) (a : harg) (l : lst) : list instr * lst :=
  let '(result, _, c, l) := create_call_stack_local (TBuff (buffer_size w)) false true l in
  match a with
  | HInt => (c ++ [LGet result; Call (hash_func w a)], l)
  | HBuf _ => let '(buf_len, l) := add_local T32 l in (c ++ [LTee buf_len; LGet result; Call (hash_func w a)], l)
  end.
