(** * The expression compiler

    Models the traversal of expressions of /repo/clar2wasm/src/wasm_generator.rs
    and of the words in /repo/clar2wasm/src/words/.  A fragment of emitted code
    depends on the label depth of the early-return block of the enclosing
    function ([early_return_block_id]), on the locals of the variables in scope
    ([bindings]) and on the local allocator; conventions as in Emit.v.

    Simplifications:
    - argument-count checks (modelled in ErrMap.v, C43) and name-collision errors
      are left out: the trees are accepted by the type checker;
    - cost-tracking code is off;
    - code is inside a function ([handle_short_return_function]; the top-level
      variant raises a runtime error instead);
    - [duck_type] after a call is the identity: the expected type is the
      declared one up to maximal lengths. *)
From Coq Require Import ZArith String List Bool Lia.
Import ListNotations.
From Verif Require Import Wasm Std StdEnv Clar Emit Equal Ast.
Open Scope Z_scope.
Open Scope list_scope.

(** bindings.rs (src/wasm_generator.rs 82-140): variable name -> locals *)
Definition benv := list (string * list nat).
Definition frag := nat -> benv -> lst -> list instr * lst.

(** wasm_generator.rs 1389-1470 [visit_literal_value], integers: low word, high word *)
Definition e_num (z : Z) : frag := fun _ _ l => ([Const (VI64 (z mod m64)); Const (VI64 (z / m64 mod m64))], l).
(** words/constants.rs, 1472-1560 [lookup_reserved_variable]: true, false, none *)
Definition e_bool (b : bool) : frag := fun _ _ l => ([Const (VI32 (if b then 1 else 0))], l).
Definition e_none (t : ty) : frag := fun _ _ l => (placeholders t, l).
(** 1416-1470: literals kept in memory: address and byte length *)
Definition e_bytes (off len : Z) : frag := fun _ _ l => ([Const (VI32 off); Const (VI32 len)], l).
(** 1640-1663 [visit_atom]: the locals bound to the name *)
Definition e_var (x : string) : frag := fun _ B l =>
  (push_locals (match assoc x B with Some is => is | None => [] end), l).

(** 1361-1387 [traverse_statement_list]: the value of every statement but the last is dropped *)
Definition e_seq (ta : ty) (a b : frag) : frag := fun d B l =>
  let '(ca, l) := a d B l in
  let '(cb, l) := b d B l in
  (ca ++ drop_value ta ++ cb, l).

(** words/bindings.rs 20-85 [let] *)
Definition e_let (x : string) (ta : ty) (a b : frag) : frag := fun d B l =>
  let '(ca, l) := a d B l in
  let '(is, cs, l) := save_to_locals ta l in
  let '(cb, l) := b d ((x, is) :: B) l in
  (ca ++ cs ++ cb, l).

(** words/conditionals.rs 270-312 [if]: both branches are emitted before the condition *)
Definition e_if (t : ty) (c a b : frag) : frag := fun d B l =>
  let '(ca, l) := a (S d) B l in
  let '(cb, l) := b (S d) B l in
  let '(cc, l) := c d B l in
  (cc ++ [If 0 (length (clar2wasm_ty t)) ca cb], l).

(** 602-650 [traverse_short_circuiting_list], [invert] for [or] *)
Fixpoint branches (es : list frag) (d : nat) (B : benv) (l : lst) : list (list instr) * lst :=
  match es with
  | [] => ([], l)
  | e :: es => let '(c, l) := e d B l in let '(cs, l) := branches es d B l in (c :: cs, l)
  end.
Definition e_short (invert : bool) (es : list frag) : frag := fun d B l =>
  let '(cs, l) := branches es (S d) B l in
  let noop := [Const (VI32 (if invert then 1 else 0))] in
  (Const (VI32 (if invert then 0 else 1)) ::
   map (fun c => if invert then If 0 1 noop c else If 0 1 c noop) cs, l).

(** words/equal.rs 24-87 [is-eq] *)
Fixpoint eq_operands (t : ty) (vs : list nat) (es : list frag) (d : nat) (B : benv) (l : lst) : list instr * lst :=
  match es with
  | [] => ([], l)
  | e :: es =>
      let '(c, l) := e d B l in
      let '(ns, cs, l) := save_to_locals t l in
      let '(ce, l) := wasm_equal t vs ns l in
      let '(cr, l) := eq_operands t vs es d B l in
      (c ++ cs ++ ce ++ [B32 And] ++ cr, l)
  end.
Definition e_eq (t : ty) (a : frag) (es : list frag) : frag := fun d B l =>
  let '(ca, l) := a d B l in
  match es with
  | [] => (ca ++ drop_value t ++ [Const (VI32 1)], l)
  | _ =>
      let '(vs, cs, l) := save_to_locals t l in
      let '(cr, l) := eq_operands t vs es d B l in
      (ca ++ cs ++ [Const (VI32 1)] ++ cr, l)
  end.

(** words/enums.rs: [some] 10-53, [ok] 55-108, [err] 110-163 *)
Definition e_some (a : frag) : frag := fun d B l => let '(c, l) := a d B l in (Const (VI32 1) :: c, l).
Definition e_ok (a : frag) (err : ty) : frag := fun d B l =>
  let '(c, l) := a d B l in (Const (VI32 1) :: c ++ placeholders err, l).
Definition e_err (ok : ty) (a : frag) : frag := fun d B l =>
  let '(c, l) := a d B l in (Const (VI32 0) :: placeholders ok ++ c, l).

(** words/conditionals.rs 315-435 [match] *)
Definition e_match_opt (t ti : ty) (c : frag) (x : string) (a b : frag) : frag := fun d B l =>
  let '(cc, l) := c d B l in
  let '(is, cs, l) := save_to_locals ti l in
  let '(ca, l) := a (S d) ((x, is) :: B) l in
  let '(cb, l) := b (S d) B l in
  (cc ++ cs ++ [If 0 (length (clar2wasm_ty t)) ca cb], l).
Definition e_match_resp (t to te : ty) (c : frag) (x : string) (a : frag) (y : string) (b : frag) : frag := fun d B l =>
  let '(cc, l) := c d B l in
  let '(es, ce, l) := save_to_locals te l in
  let '(os, co, l) := save_to_locals to l in
  let '(ca, l) := a (S d) ((x, os) :: B) l in
  let '(cb, l) := b (S d) ((y, es) :: B) l in
  (cc ++ ce ++ co ++ [If 0 (length (clar2wasm_ty t)) ca cb], l).

(** 52-105 [ShortReturnable::new]: the operand of [try!], [unwrap!],
    [unwrap-err!] is saved; the locals of the success value, of the error value
    (none for an optional), of the tag *)
Definition short_new (t : ty) (l : lst) : list nat * list nat * nat * list instr * lst :=
  match t with
  | TOpt ti =>
      let '(is, cs, l) := save_to_locals ti l in
      let '(v, l) := add_local T32 l in
      (is, [], v, cs ++ [LSet v], l)
  | TResp to te =>
      let '(es, ce, l) := save_to_locals te l in
      let '(os, co, l) := save_to_locals to l in
      let '(v, l) := add_local T32 l in
      (os, es, v, ce ++ co ++ [LSet v], l)
  | _ => ([], [], 0%nat, [], l)
  end.
(** 207-262 [handle_short_return_function] *)
Definition short_return (rt : ty) (push cond : list instr) (d : nat) : list instr :=
  push ++ cond ++ [BrIf d] ++ drop_value rt.

(** 740-830 [unwrap!], 832-918 [unwrap-err!] *)
Definition e_unwrap (rt t : ty) (a b : frag) : frag := fun d B l =>
  let '(ca, l) := a d B l in
  let '(os, es, v, cn, l) := short_new t l in
  let '(cb, l) := b d B l in
  let '(ts, ct, l) := save_to_locals rt l in
  (ca ++ cn ++ cb ++ ct ++ short_return rt (push_locals ts) [LGet v; Eqz32] d ++ push_locals os, l).
Definition e_unwrap_err (rt t : ty) (a b : frag) : frag := fun d B l =>
  let '(ca, l) := a d B l in
  let '(os, es, v, cn, l) := short_new t l in
  let '(cb, l) := b d B l in
  let '(ts, ct, l) := save_to_locals rt l in
  (ca ++ cn ++ cb ++ ct ++ short_return rt (push_locals ts) [LGet v] d ++ push_locals es, l).
(** 920-1000 [asserts!]: the thrown expression is evaluated in any case *)
Definition e_asserts (rt : ty) (c b : frag) : frag := fun d B l =>
  let '(cc, l) := c d B l in
  let '(p, l) := add_local T32 l in
  let '(cb, l) := b d B l in
  let '(ts, ct, l) := save_to_locals rt l in
  (cc ++ [LSet p] ++ cb ++ ct ++ short_return rt (push_locals ts) [LGet p; Eqz32] d ++ [Const (VI32 1)], l).
(** 1002-1046 [try!] *)
Definition e_try (rt t : ty) (a : frag) : frag := fun d B l =>
  let '(ca, l) := a d B l in
  let '(os, es, v, cn, l) := short_new t l in
  let value :=
    match t, rt with
    | TOpt ti, _ => Const (VI32 0) :: placeholders ti
    | _, TResp to _ => Const (VI32 0) :: placeholders to ++ push_locals es
    | _, _ => []
    end in
  (ca ++ cn ++ short_return rt value [LGet v; Eqz32] d ++ push_locals os, l).

(** words/control_flow.rs 52-192 [unwrap-panic], 194-289 [unwrap-err-panic] *)
Definition panic : list instr := [Const (VI32 6); Call "stdlib.runtime-error"].
Definition e_unwrap_panic (t : ty) (a : frag) : frag := fun d B l =>
  let '(ca, l) := a d B l in
  match t with
  | TOpt ti =>
      let '(is, cs, l) := save_to_locals ti l in
      (ca ++ cs ++ [Eqz32; If 0 0 panic []] ++ push_locals is, l)
  | TResp to te =>
      let '(is, cs, l) := save_to_locals to l in
      (ca ++ drop_value te ++ cs ++ [Eqz32; If 0 0 panic []] ++ push_locals is, l)
  | _ => (ca, l)
  end.
Definition e_unwrap_err_panic (t : ty) (a : frag) : frag := fun d B l =>
  let '(ca, l) := a d B l in
  match t with
  | TResp to te =>
      let '(es, cs, l) := save_to_locals te l in
      (ca ++ cs ++ drop_value to ++ [Eqz32; If 0 0 [] panic] ++ push_locals es, l)
  | _ => (ca, l)
  end.

(** words/options.rs, words/responses.rs: [is-some], [is-none], [is-ok], [is-err];
    the inner value is dropped, [flip]: the tag is negated *)
Definition e_tag (t : ty) (flip : bool) (a : frag) : frag := fun d B l =>
  let '(ca, l) := a d B l in
  (ca ++ (match t with TOpt ti => drop_value ti | TResp to te => drop_value te ++ drop_value to | _ => [] end) ++
   (if flip then [Const (VI32 1); B32 Xor] else []), l).

(** words/default_to.rs *)
Definition e_default (t : ty) (a b : frag) : frag := fun d B l =>
  let '(ca, l) := a d B l in
  let '(cb, l) := b d B l in
  let '(is, cs, l) := save_to_locals t l in
  let n := length (clar2wasm_ty t) in
  (ca ++ cb ++ cs ++ [If n n (drop_value t ++ push_locals is) []], l).

(** words/tuples.rs 21-99 [tuple]: fields are evaluated in source order, pushed in key order *)
Fixpoint tuple_fields (ts : list (string * ty)) (fs : list (string * frag)) (d : nat) (B : benv) (l : lst)
  : list instr * list (string * list nat) * lst :=
  match fs with
  | [] => ([], [], l)
  | (k, e) :: fs =>
      let '(c, l) := e d B l in
      let '(is, cs, l) := save_to_locals (field_ty k ts) l in
      let '(cr, m, l) := tuple_fields ts fs d B l in
      (c ++ cs ++ cr, (k, is) :: m, l)
  end.
Definition bound_to (k : string) (m : list (string * list nat)) : list nat :=
  match assoc k m with Some is => is | None => [] end.
Definition e_tuple (ts : list (string * ty)) (fs : list (string * frag)) : frag := fun d B l =>
  let '(c, m, l) := tuple_fields ts fs d B l in
  (c ++ flat_map (fun f => push_locals (bound_to (fst f) m)) ts, l).

(** 101-177 [get], on a tuple or an optional tuple *)
Definition e_get (k : string) (ts : list (string * ty)) (a : frag) : frag := fun d B l =>
  let '(ca, l) := a d B l in
  let '(ns, l) := add_locals (rev (clar2wasm_ty (field_ty k ts))) l in
  (ca ++ flat_map (fun f => if String.eqb (fst f) k then map LSet ns else drop_value (snd f)) (rev ts) ++
   push_locals (rev ns), l).

(** 179-291 [merge] *)
Fixpoint merge_locals (ts : list (string * ty)) (l : lst) : list (string * list nat) * lst :=
  match ts with
  | [] => ([], l)
  | (k, t) :: ts =>
      let '(is, l) := add_locals (clar2wasm_ty t) l in
      let '(m, l) := merge_locals ts l in
      ((k, is) :: m, l)
  end.
Definition has_key (k : string) (ts : list (string * ty)) : bool :=
  match assoc k ts with Some _ => true | None => false end.
Definition e_merge (ts ta tb : list (string * ty)) (a b : frag) : frag := fun d B l =>
  let '(m, l) := merge_locals ts l in
  let '(ca, l) := a d B l in
  let '(cb, l) := b d B l in
  (ca ++ flat_map (fun f => if has_key (fst f) tb then drop_value (snd f) else map LSet (rev (bound_to (fst f) m))) (rev ta) ++
   cb ++ flat_map (fun f => map LSet (rev (bound_to (fst f) m))) (rev tb) ++
   flat_map (fun f => push_locals (snd f)) m, l).

(** words/sequences.rs 19-76 [list] *)
Fixpoint list_elems (t : ty) (o : nat) (off : Z) (es : list frag) (d : nat) (B : benv) (l : lst) : list instr * lst :=
  match es with
  | [] => ([], l)
  | e :: es =>
      let '(c, l) := e d B l in
      let '(cw, l) := write_to_memory t o off l in
      let '(cr, l) := list_elems t o (off + get_type_size t) es d B l in
      (c ++ cw ++ cr, l)
  end.
Definition e_list (n : Z) (t : ty) (es : list frag) : frag := fun d B l =>
  let '(o, _, cc, l) := create_call_stack_local (TList n t) false true l in
  let '(ce, l) := list_elems t o 0 es d B l in
  (cc ++ ce ++ [LGet o; Const (VI32 (Z.of_nat (length es) * get_type_size t))], l).

(** 320-424 [append] *)
Definition e_append (n : Z) (t : ty) (a b : frag) : frag := fun d B l =>
  let '(w, _, cc, l) := create_call_stack_local (TList n t) false true l in
  let '(ca, l) := a d B l in
  let '(sl, l) := add_local T32 l in
  let '(ne, l) := add_local T32 l in
  let '(cb, l) := b d B l in
  let '(cw, l) := write_to_memory t w 0 l in
  (cc ++ [LGet w; LGet w] ++ ca ++
   [LTee sl; LGet w; LGet sl; B32 Add; LSet w;
    LGet sl; Const (VI32 (get_type_size t)); B32 Add; LTee sl;
    Const (VI32 (get_type_size t)); B32 DivU; LSet ne; MemCopy] ++
   cb ++ cw ++ [LGet sl], l).

(** 533-612 [concat] *)
Definition e_concat (t : ty) (a b : frag) : frag := fun d B l =>
  let '(o, _, cc, l) := create_call_stack_local t false true l in
  let '(ca, l) := a d B l in
  let '(n1, l) := add_local T32 l in
  let '(cb, l) := b d B l in
  let '(n2, l) := add_local T32 l in
  let '(n3, l) := add_local T32 l in
  (cc ++ [LGet o] ++ ca ++ [LTee n1; MemCopy; LGet o; LGet n1; B32 Add] ++
   cb ++ [LTee n2; MemCopy; LGet o; LGet n1; LGet n2; B32 Add; LTee n3], l).

(** from a byte length to a number of elements: 468-506, 947-985 *)
Definition count_code (t : ty) : list instr :=
  match t with
  | TList _ te => [Const (VI32 (get_type_size te)); B32 DivU]
  | TUtf8 _ => [Const (VI32 2); B32 ShrU]
  | _ => []
  end.

(** 426-531 [as-max-len?] *)
Definition e_max_len (t : ty) (a : frag) (n : Z) : frag := fun d B l =>
  let '(ca, l) := a d B l in
  let '(ln, l) := add_local T32 l in
  let '(o, l) := add_local T32 l in
  ([Const (VI32 0); Const (VI32 1)] ++ ca ++ [LSet ln; LSet o; LGet ln] ++ count_code t ++
   [ExtU; Const (VI64 (n mod m64)); Const (VI64 (n / m64 mod m64)); Drop; R64 GtU; Select; LGet o; LGet ln], l).

(** 920-1001 [len] *)
Definition e_len (t : ty) (a : frag) : frag := fun d B l =>
  let '(ca, l) := a d B l in
  let '(ln, l) := add_local T32 l in
  (ca ++ [LSet ln; Drop; LGet ln] ++ count_code t ++ [ExtU; Const (VI64 0)], l).

(** 1003-1194 [element-at], [element-at?] *)
Definition e_element_at (t : ty) (a i : frag) : frag := fun d B l =>
  let '(ca, l) := a d B l in
  let '(ci, l) := i d B l in
  let '(ov, l) := add_local T32 l in
  let '(ix, l) := add_local T64 l in
  let '(o, l) := add_local T32 l in
  let te := elem_ty t in
  (ca ++ [ExtU] ++ ci ++
   [Const (VI64 0); R64 GtU; LSet ov; LTee ix; Const (VI64 (1024 * 1024)); R64 GtU;
    LGet ov; B32 Or; LSet ov; LGet ix] ++
   (match t with
    | TList _ te => [Const (VI64 (get_type_size te)); B64 Mul]
    | TUtf8 _ => [Const (VI64 2); B64 Shl]
    | _ => []
    end) ++
   [LTee ix; R64 LeU; LGet ov; B32 Or;
    If 1 (length (clar2wasm_ty (TOpt te)))
      (Drop :: Const (VI32 0) ::
       match t with TList _ te => placeholders te | _ => [Const (VI32 0); Const (VI32 0)] end)
      ([LGet ix; Wrap; B32 Add; LSet o; Const (VI32 1)] ++
       match t with
       | TList _ te => read_from_memory te o 0
       | TUtf8 _ => [LGet o; Const (VI32 4)]
       | _ => [LGet o; Const (VI32 1)]
       end)], l).

(** wasm_generator.rs 485-525: arithmetic words, applied as soon as two operands
    are available; names from words/arithmetic.rs 15-190 *)
Definition sfx (t : ty) : string := match t with TInt => "int" | _ => "uint" end.
Definition arith_fun (o : arith) (t : ty) : string :=
  ("stdlib." ++ match o with OAdd => "add" | OSub => "sub" | OMul => "mul" | ODiv => "div" end ++ "-" ++ sfx t)%string.
Fixpoint arith_rest (f : string) (es : list frag) (d : nat) (B : benv) (l : lst) : list instr * lst :=
  match es with
  | [] => ([], l)
  | e :: es => let '(c, l) := e d B l in let '(cr, l) := arith_rest f es d B l in (c ++ [Call f] ++ cr, l)
  end.
(** one operand: arithmetic.rs 74-125 [(- x)]; the other words leave it *)
Definition arith_single (o : arith) (t : ty) (l : lst) : list instr * lst :=
  match o, t with
  | OSub, TInt =>
      let '(lo, l) := add_local T64 l in
      let '(hi, l) := add_local T64 l in
      ([LSet hi; LSet lo; Const (VI64 0); Const (VI64 0); LGet lo; LGet hi; Call "stdlib.sub-int"], l)
  | OSub, _ => ([Const (VI32 1); Call "stdlib.runtime-error"], l)
  | _, _ => ([], l)
  end.
Definition e_arith (o : arith) (t : ty) (a : frag) (es : list frag) : frag := fun d B l =>
  let '(ca, l) := a d B l in
  match es with
  | [] => let '(cs, l) := arith_single o t l in (ca ++ cs, l)
  | _ => let '(cr, l) := arith_rest (arith_fun o t) es d B l in (ca ++ cr, l)
  end.

(** 440-484: words whose operands are all evaluated first; words/arithmetic.rs,
    comparison.rs, logical.rs, bitwise.rs, conversion.rs.  [t]: the return type,
    [ta]: the type of the first operand, [n]: the number of operands *)
Definition cmp_sfx (t : ty) : string := match t with TInt => "int" | TUInt => "uint" | _ => "buff" end.
Definition word_code (w : word) (t ta : ty) (n : nat) : list instr :=
  match w with
  | WMod => [Call ("stdlib.mod-" ++ sfx t)%string]
  | WPow => [Call ("stdlib.pow-" ++ sfx t)%string]
  | WLog2 => [Call ("stdlib.log2-" ++ sfx t)%string]
  | WSqrti => [Call ("stdlib.sqrti-" ++ sfx t)%string]
  | WLt => [Call ("stdlib.lt-" ++ cmp_sfx ta)%string]
  | WLe => [Call ("stdlib.le-" ++ cmp_sfx ta)%string]
  | WGt => [Call ("stdlib.gt-" ++ cmp_sfx ta)%string]
  | WGe => [Call ("stdlib.ge-" ++ cmp_sfx ta)%string]
  | WNot => [Call "stdlib.not"]
  | WBitAnd => repeat (Call "stdlib.bit-and") (n - 1)
  | WBitOr => repeat (Call "stdlib.bit-or") (n - 1)
  | WBitXor => repeat (Call "stdlib.bit-xor") (n - 1)
  | WXor => repeat (Call "stdlib.bit-xor") (n - 1)
  | WBitNot => [Call "stdlib.bit-not"]
  | WShl => [Call "stdlib.bit-shift-left"]
  | WShr => [Call ("stdlib.bit-shift-right-" ++ sfx ta)%string]
  | WToInt => [Call "stdlib.to-int"]
  | WToUint => [Call "stdlib.to-uint"]
  end.
(** 1538-1558 [traverse_args] *)
Fixpoint operands (es : list frag) (d : nat) (B : benv) (l : lst) : list instr * lst :=
  match es with
  | [] => ([], l)
  | e :: es => let '(c, l) := e d B l in let '(cr, l) := operands es d B l in (c ++ cr, l)
  end.
Definition e_word (w : word) (t ta : ty) (es : list frag) : frag := fun d B l =>
  let '(c, l) := operands es d B l in (c ++ word_code w t ta (length es), l).

(** ** Calls of private functions *)

(** 2184-2202 [has_in_memory_type] *)
Fixpoint has_in_memory (t : ty) : bool :=
  match t with
  | TNo | TInt | TUInt | TBool => false
  | TOpt t => has_in_memory t
  | TResp t e => has_in_memory t || has_in_memory e
  | TTuple fs => existsb (fun f => has_in_memory (snd f)) fs
  | _ => true
  end.
(** 2204-2233 [count_in_memory_space] *)
Fixpoint count_in_memory_space (t : ty) : Z :=
  match t with
  | TNo | TInt | TUInt | TBool => 0
  | TOpt t => count_in_memory_space t
  | TResp t e => count_in_memory_space t + count_in_memory_space e
  | TPrin | TTrait _ => 150
  | TBuff n | TAscii n => n
  | TUtf8 n => 4 * n
  | TList n t => n * get_type_in_memory_size t true
  | TTuple fs => fold_right (fun f n => count_in_memory_space (snd f) + n) 0 fs
  end.

(** 1793-1965 [copy_value]: the locals [is] hold a value; its in-memory parts are
    copied to the address in the local [co], which advances *)
Definition copy_bytes (o n co : nat) : list instr :=
  [LGet co; LGet o; LGet n; MemCopy; LGet co; LSet o; LGet co; LGet n; B32 Add; LSet co].
Fixpoint copy_value (t : ty) (is : list nat) (co : nat) (l : lst) {struct t} : list instr * lst :=
  match t with
  | TNo | TInt | TUInt | TBool => ([], l)
  | TList _ te =>
      let o := lnth 0 is in
      let n := lnth 1 is in
      let '(es, cs, l) := save_to_locals te l in
      let '(cc, l) := copy_value te es co l in
      let '(cw, l) := write_to_memory te o 0 l in
      (copy_bytes o n co ++
       [LGet n;
        If 0 0
          [LGet o; LGet n;
           Loop 0 0
             (read_from_memory te o 0 ++ cs ++ cc ++ push_locals es ++ cw ++
              [LGet o; Const (VI32 (get_type_size te)); B32 Add; LSet o;
               LGet n; Const (VI32 (get_type_size te)); B32 Sub; LTee n; BrIf 0]);
           LSet n; LSet o]
          []], l)
  | TBuff _ | TAscii _ | TUtf8 _ | TPrin | TTrait _ => (copy_bytes (lnth 0 is) (lnth 1 is) co, l)
  | TOpt ti =>
      let '(c, l) := copy_value ti (tl is) co l in
      ([LGet (lnth 0 is); If 0 0 c []], l)
  | TResp to te =>
      let n := length (clar2wasm_ty to) in
      let '(c1, l) := if has_in_memory to then copy_value to (firstn n (tl is)) co l else ([], l) in
      let '(c2, l) := if has_in_memory te then copy_value te (skipn n (tl is)) co l else ([], l) in
      ([LGet (lnth 0 is); If 0 0 c1 c2], l)
  | TTuple fs =>
      (fix go (fs : list (string * ty)) (is : list nat) (l : lst) {struct fs} : list instr * lst :=
         match fs with
         | [] => ([], l)
         | (_, t) :: fs =>
             let n := length (clar2wasm_ty t) in
             let '(c1, l) := if has_in_memory t then copy_value t (firstn n is) co l else ([], l) in
             let '(c2, l) := go fs (skipn n is) l in
             (c1 ++ c2, l)
         end) fs is l
  end.

(** 1665-1791 [traverse_call_user_defined], [visit_call_user_defined], a private
    function ([local_call] 1967-1976); [tr]: declared return type, [t]: type of
    the expression. *)
(** 1965-2040 [local_call], [local_call_public], [local_call_read_only] *)
Definition call_code (k : kind) (f : string) (tr : ty) (l : lst) : list instr * lst :=
  match k with
  | KPrivate => ([Call f], l)
  | KReadOnly => ([Call "stdlib.begin_read_only_call"; Call f; Call "stdlib.roll_back_call"], l)
  | KPublic =>
      let '(is, cs, l) := save_to_locals tr l in
      ([Call "stdlib.begin_public_call"; Call f] ++ cs ++
       [LGet (hd O is); If 0 0 [Call "stdlib.commit_call"] [Call "stdlib.roll_back_call"]] ++ push_locals is, l)
  end.
Definition visit_call (k : kind) (f : string) (tr t : ty) (pre : option nat) (l : lst) : list instr * lst :=
  if has_in_memory tr then
    let '(o, cr, l) :=
      match pre with
      | Some o => (o, [], l)
      | None => let '(o, l) := add_local T32 l in
          (o, [GGet "stack-pointer"; LTee o; Const (VI32 (count_in_memory_space tr mod m32)); B32 Add; GSet "stack-pointer"], l)
      end in
    let '(ci, l) := call_code k f tr l in
    let '(is, cs, l) := save_to_locals t l in
    let '(cc, l) := copy_value t is o l in
    (cr ++ ci ++ cs ++ cc ++ push_locals is, l)
  else call_code k f tr l.
Definition e_call (k : kind) (f : string) (tr t : ty) (es : list frag) : frag := fun d B l =>
  let '(ca, l) := operands es d B l in
  let '(cv, l) := visit_call k f tr t None l in
  (ca ++ cv, l).

(** words/contract.rs 23-46 [as-contract] *)
Definition e_as_contract (a : frag) : frag := fun d B l =>
  let '(c, l) := a d B l in
  ([Call "stdlib.enter_as_contract"] ++ c ++ [Call "stdlib.exit_as_contract"], l).

(** ** Words over sequences *)

(** from an index to a byte offset: 1093-1119, 1284-1308, 1548-1583 *)
Definition scale_code (t : ty) : list instr :=
  match t with TList _ te => [Const (VI64 (get_type_size te)); B64 Mul] | TUtf8 _ => [Const (VI64 2); B64 Shl] | _ => [] end.
(** the element at the address in a local *)
Definition elem_code (t : ty) (o : nat) : list instr :=
  match t with TList _ te => read_from_memory te o 0 | TUtf8 _ => [LGet o; Const (VI32 4)] | _ => [LGet o; Const (VI32 1)] end.
Definition elem_size (t : ty) : Z := match t with TUtf8 _ => 4 | TList _ t => get_type_size t | _ => 1 end.

(** words/sequences.rs 1480-1725 [slice?].  The second overflow flag hides the
    first one (1530, 1614: [overflow_local] is declared twice). *)
Definition e_slice (t : ty) (a i j : frag) : frag := fun d B l =>
  let '(ca, l) := a d B l in
  let '(len, l) := add_local T64 l in
  let '(ci, l) := i d B l in
  let '(ov, l) := add_local T32 l in
  let '(lo, l) := add_local T64 l in
  let '(base, l) := add_local T64 l in
  let '(cj, l) := j d B l in
  let '(ov2, l) := add_local T32 l in
  let '(hi, l) := add_local T64 l in
  (ca ++ [ExtU; LTee len] ++ ci ++
   [Const (VI64 0); R64 GtU; LSet ov; LTee lo; Const (VI64 (1024 * 1024)); R64 GtU; LGet ov; B32 Or; LSet ov; LGet lo] ++
   scale_code t ++
   [LTee lo; R64 LeU; LGet ov; B32 Or; LSet ov; ExtU; LTee base; LGet lo; B64 Add; LSet lo; LGet len] ++ cj ++
   [Const (VI64 0); R64 GtU; LSet ov2; LTee hi; Const (VI64 (1024 * 1024)); R64 GtU; LGet ov2; B32 Or; LSet ov2; LGet hi] ++
   scale_code t ++
   [LTee hi; R64 LtU; LGet ov2; B32 Or; LSet ov2; LGet base; LGet hi; B64 Add; LSet hi;
    LGet hi; LGet lo; R64 LtU; LGet ov2; B32 Or; LSet ov2;
    Const (VI32 0); Const (VI32 1); LGet ov2; Select; LGet lo; Wrap; LGet hi; LGet lo; B64 Sub; Wrap], l).

(** 1196-1478 [replace-at?]; the replacement is checked before the index *)
Definition e_replace_at (t tb : ty) (a i b : frag) : frag := fun d B l =>
  let '(len, l) := add_local T32 l in
  let '(num, l) := add_local T32 l in
  let '(dest, _, cc, l) := create_call_stack_local t false true l in
  let '(ca, l) := a d B l in
  let '(ci, l) := i d B l in
  let '(ov, l) := add_local T32 l in
  let '(ix, l) := add_local T64 l in
  let '(cb, l) := b d B l in
  let '(cchk, l) :=
    match t with
    | TList _ _ => ([], l)
    | _ => let '(rl, l) := add_local T32 l in
        ([LTee rl; Eqz32; If 0 0 [Const (VI32 5); Call "stdlib.runtime-error"] []; LGet rl], l)
    end in
  let '(off, l) := add_local T32 l in
  let '(cw, l) :=
    match t with
    | TList _ te => write_to_memory te off 0 l
    | _ => let '(src, l) := add_local T32 l in
        ([Drop; LSet src; LGet off; LGet src; Const (VI32 (elem_size t)); MemCopy], l)
    end in
  (cc ++ [LGet dest] ++ ca ++ [LTee len; LGet len] ++ count_code t ++ [LSet num; MemCopy; LGet len; ExtU] ++ ci ++
   [Const (VI64 0); R64 GtU; LSet ov; LTee ix; Const (VI64 (1024 * 1024)); R64 GtU; LGet ov; B32 Or; LSet ov; LGet ix] ++
   scale_code t ++ [LTee ix; R64 LeU; LGet ov; B32 Or; LSet ov] ++ cb ++ cchk ++
   [LGet ov;
    If (length (clar2wasm_ty tb)) 3
      (drop_value (match t with TList _ te => te | _ => TBuff 1 end) ++ [Const (VI32 0); Const (VI32 0); Const (VI32 0)])
      ([LGet ix; Wrap; LGet dest; B32 Add; LSet off] ++ cw ++ [Const (VI32 1); LGet dest; LGet len])], l).

(** words/equal.rs 90-305 [index-of], [index-of?]; [tb]: type of the item *)
Definition e_index_of (t tb : ty) (a b : frag) : frag := fun d B l =>
  let '(ca, l) := a d B l in
  let '(size, l) := add_local T32 l in
  let '(off, l) := add_local T32 l in
  let '(end_, l) := add_local T32 l in
  let '(cb, l) := b (S d) B l in
  let '(is, cs, l) := save_to_locals tb l in
  let '(ix, l) := add_local T64 l in
  let '(es, ce, l) := save_to_locals (match t with TList _ te => te | _ => tb end) l in
  let '(cq, l) := wasm_equal tb is es l in
  (ca ++ [LSet size; LTee off; LGet size; B32 Add; LSet end_; LGet size; Eqz32;
    If 0 3 [Const (VI32 0); Const (VI64 0); Const (VI64 0)]
      (cb ++ cs ++ [Const (VI64 0); LSet ix;
        Loop 0 3
          (elem_code t off ++ ce ++ cq ++
           [If 0 3 [Const (VI32 1); LGet ix; Const (VI64 0)]
              [LGet off; Const (VI32 (elem_size t)); B32 Add; LTee off; LGet end_; R32 GeU;
               If 0 3 [Const (VI32 0); LGet ix; Const (VI64 0)]
                 [LGet ix; Const (VI64 1); B64 Add; LSet ix; Br 2]]])])], l).

(** what is emitted to apply a function to values on the stack: words visited
    with the given operand types, user functions called; [tr]: declared return
    type, [pre]: where in-memory parts of the result go *)
Definition visit_fn (g : fn) (tr t : ty) (ts : list ty) (pre : option nat) (l : lst) : list instr * lst :=
  match g with
  | FUser k f => visit_call k f tr t pre l
  | FWord w => (word_code w t (hd TNo ts) (length ts), l)
  | FArith o => match ts with [_] => arith_single o t l | _ => ([Call (arith_fun o t)], l) end
  | FBool any => (repeat (B32 (if any then Or else And)) (length ts - 1), l)
  end.

(** words/sequences.rs 78-310 [fold] *)
Definition e_fold (g : fn) (t ta : ty) (a b : frag) : frag := fun d B l =>
  let '(ro, _, cc, l) := create_call_stack_local t true true l in
  let '(ca, l) := a d B l in
  let '(len, l) := add_local T32 l in
  let '(off, l) := add_local T32 l in
  let '(end_, l) := add_local T32 l in
  let '(cb, l) := b d B l in
  let '(rs, cs, l) := save_to_locals t l in
  let '(cv, l) := visit_fn g t t [elem_ty ta; t] (Some ro) l in
  let n := length (clar2wasm_ty t) in
  (cc ++ ca ++ [LSet len; LTee off; LGet len; B32 Add; LSet end_] ++ cb ++
   [LGet len; Eqz32;
    If n n []
      (cs ++
       [Loop 0 0
          (elem_code ta off ++ push_locals rs ++ cv ++ map LSet (rev rs) ++
           [LGet off; Const (VI32 (elem_size ta)); B32 Add; LTee off; LGet end_; R32 LtU; BrIf 0])] ++
       push_locals rs)], l).

(** 614-918 [map]: the sequences are evaluated, with the length of the shortest *)
Fixpoint map_seqs (mn : nat) (es : list (ty * frag)) (d : nat) (B : benv) (l : lst) : list instr * list nat * lst :=
  match es with
  | [] => ([], [], l)
  | (t, e) :: es =>
      let '(c, l) := e d B l in
      let '(num, l) := add_local T32 l in
      let '(off, l) := add_local T32 l in
      let '(cr, os, l) := map_seqs mn es d B l in
      (c ++ [Const (VI32 (elem_size t)); B32 DivS; LTee num; LGet num; LGet mn; R32 LeS; If 1 0 [LSet mn] [Drop]; LSet off] ++ cr,
       off :: os, l)
  end.
(** 800-850: the next element of each sequence; arithmetic words are applied
    as soon as two elements are on the stack *)
Fixpoint map_elems (v : option (list instr)) (first : bool) (ts : list ty) (os : list nat) : list instr :=
  match ts, os with
  | t :: ts, o :: os =>
      elem_code t o ++ (match v with Some c => if first then [] else c | None => [] end) ++
      [LGet o; Const (VI32 (elem_size t)); B32 Add; LSet o] ++ map_elems v false ts os
  | _, _ => []
  end.
Definition e_map (g : fn) (tr : ty) (n : Z) (t : ty) (es : list (ty * frag)) : frag := fun d B l =>
  let ts := map fst es in
  let '(mn, l) := add_local T32 l in
  let '(ca, os, l) := map_seqs mn es d B l in
  let '(base, _, cc, l) := create_call_stack_local (TList n t) false true l in
  let '(out, l) := add_local T32 l in
  let '(ix, l) := add_local T32 l in
  let inter := match g, ts with FArith o, _ :: _ :: _ => Some [Call (arith_fun o t)] | _, _ => None end in
  let '(cv, l) := match inter with Some _ => ([], l) | None => visit_fn g tr t (map elem_ty ts) None l end in
  let '(cw, l) := write_to_memory t out 0 l in
  ([Const (VI32 2147483647); LSet mn] ++ ca ++ cc ++ [LGet base; LSet out; Const (VI32 0); LSet ix;
    Block 0 0
      [Loop 0 0
         ([LGet ix; LGet mn; R32 GeU; BrIf 1] ++ map_elems inter true ts os ++ cv ++ cw ++
          [LGet out; Const (VI32 (get_type_size t)); B32 Add; LSet out; LGet ix; Const (VI32 1); B32 Add; LTee ix; Br 0])];
    LGet base; LGet mn; Const (VI32 (get_type_size t)); B32 Mul], l).
(** 640-670: before that, if a function of the contract is applied and the first
    sequence is a list, the type recorded for that sequence is replaced by a list of
    at most as many elements as an element has bytes.  (Shown here on the expressions
    that reserve space according to their own type and are relabelled directly.) *)
Definition map_src (g : fn) (n : Z) (t : ty) (es : list expr) : expr :=
  match g, es with
  | FUser _ _, EList _ u xs :: es => EMap g n t (EList (get_type_size u) u xs :: es)
  | FUser _ _, EAppend _ u a b :: es => EMap g n t (EAppend (get_type_size u) u a b :: es)
  | FUser _ _, EMap g' _ u xs :: es => EMap g n t (EMap g' (get_type_size u) u xs :: es)
  | _, _ => EMap g n t es
  end.

(** ** Words served by the host

    The name of the variable, map or token is a literal.  A value handed to the
    host is written to the call stack; [loc]: its size goes through a local. *)
Definition name_code (n : list Z) (o : Z) : list instr := [Const (VI32 o); Const (VI32 (Z.of_nat (length n)))].
Definition e_stash (t : ty) (loc : bool) (a : frag) : frag := fun d B l =>
  let '(o, size, cc, l) := create_call_stack_local t true false l in
  let '(sl, l) := if loc then add_local T32 l else (o, l) in
  let cz := Const (VI32 (size mod m32)) in
  let '(ca, l) := a d B l in
  let '(cw, l) := write_to_memory t o 0 l in
  (cc ++ (if loc then [cz; LSet sl] else []) ++ ca ++ cw ++ [LGet o; if loc then LGet sl else cz], l).
(** space for a value the host writes back *)
Definition nofrag : frag := fun _ _ l => ([], l).
Definition fnth (i : nat) (fs : list frag) : frag := nth i fs nofrag.

(** words/data_vars.rs 179-250 [var-get] *)
Definition e_var_get (n : list Z) (no : Z) (t : ty) : frag := fun d B l =>
  let '(o, size, cc, l) := create_call_stack_local t true true l in
  (cc ++ name_code n no ++ [LGet o; Const (VI32 (size mod m32)); Call "stdlib.get_variable"] ++ read_from_memory t o 0, l).
(** 102-177 [var-set]: the space is taken after the operand is evaluated *)
Definition e_var_set (n : list Z) (no : Z) (t : ty) (a : frag) : frag := fun d B l =>
  let '(ca, l) := a d B l in
  let '(o, size, cc, l) := create_call_stack_local t true false l in
  let '(cw, l) := write_to_memory t o 0 l in
  (ca ++ cc ++ cw ++ name_code n no ++ [LGet o; Const (VI32 (size mod m32)); Call "stdlib.set_variable"; Const (VI32 1)], l).
(** words/maps.rs 74-156 [map-get?] *)
Definition e_map_get (n : list Z) (no : Z) (kt vt : ty) (k : frag) : frag := fun d B l =>
  let '(ck, l) := e_stash kt false k d B l in
  let '(o, size, cc, l) := create_call_stack_local (TOpt vt) true true l in
  let '(sl, l) := add_local T32 l in
  (name_code n no ++ ck ++ cc ++ [Const (VI32 (size mod m32)); LSet sl; LGet o; LGet sl; Call "stdlib.map_get"] ++
   read_from_memory (TOpt vt) o 0, l).
(** 158-244 [map-set], 246-332 [map-insert] *)
Definition e_map_put (f : string) (n : list Z) (no : Z) (kt vt : ty) (k v : frag) : frag := fun d B l =>
  let '(ck, l) := e_stash kt false k d B l in
  let '(cv, l) := e_stash vt true v d B l in
  (name_code n no ++ ck ++ cv ++ [Call f], l).
(** 334-400 [map-delete] *)
Definition e_map_delete (n : list Z) (no : Z) (kt : ty) (k : frag) : frag := fun d B l =>
  let '(ck, l) := e_stash kt true k d B l in
  (name_code n no ++ ck ++ [Call "stdlib.map_delete"], l).
(** words/tokens.rs 74-268: the name, the operands, the call *)
Definition e_token (f : string) (n : list Z) (no : Z) (es : list frag) : frag := fun d B l =>
  let '(c, l) := operands es d B l in
  (name_code n no ++ c ++ [Call f], l).
(** 1396-1434 [tx-sender], [contract-caller]: the host writes the principal to the
    call stack and leaves its offset and length *)
Definition e_native (f : string) : frag := fun d B l =>
  let '(o, size, cc, l) := create_call_stack_local TPrin false true l in
  (cc ++ [LGet o; Const (VI32 (size mod m32)); Call f], l).
Definition e_prim (p : prim) (es : list frag) : frag :=
  match p with
  | PVarGet n o t => e_var_get n o t
  | PVarSet n o t => e_var_set n o t (fnth 0 es)
  | PMapGet n o kt vt => e_map_get n o kt vt (fnth 0 es)
  | PMapSet n o kt vt => e_map_put "stdlib.map_set" n o kt vt (fnth 0 es) (fnth 1 es)
  | PMapInsert n o kt vt => e_map_put "stdlib.map_insert" n o kt vt (fnth 0 es) (fnth 1 es)
  | PMapDelete n o kt _ => e_map_delete n o kt (fnth 0 es)
  | PFtSupply n o => e_token "stdlib.ft_get_supply" n o es
  | PFtBalance n o => e_token "stdlib.ft_get_balance" n o es
  | PFtMint n o => e_token "stdlib.ft_mint" n o es
  | PFtBurn n o => e_token "stdlib.ft_burn" n o es
  | PFtTransfer n o => e_token "stdlib.ft_transfer" n o es
  | PTxSender => e_native "stdlib.tx_sender"
  | PContractCaller => e_native "stdlib.contract_caller"
  end.
(** the call stack they use *)
Definition prim_frame (p : prim) : Z :=
  match p with
  | PVarGet _ _ t => call_stack_size t true true
  | PVarSet _ _ t => call_stack_size t true false
  | PMapGet _ _ kt vt => call_stack_size kt true false + call_stack_size (TOpt vt) true true
  | PMapSet _ _ kt vt | PMapInsert _ _ kt vt => call_stack_size kt true false + call_stack_size vt true false
  | PMapDelete _ _ kt _ => call_stack_size kt true false
  | PTxSender | PContractCaller => call_stack_size TPrin false true
  | _ => 0
  end.

(** ** Expressions *)

(** byte length of a literal *)
Definition lit_len (v : value) : Z :=
  match v with
  | CBuff l | CAscii l => Z.of_nat (length l)
  | CUtf8 l => 4 * Z.of_nat (length l)
  | CPrin (PStd _ h) => 2 + Z.of_nat (length h)
  | CPrin (PCon _ h n) => 2 + Z.of_nat (length h) + Z.of_nat (length n)
  | _ => 0
  end.

(** declared parameter types and return type of a function *)
Definition fsig := (list ty * ty)%type.
Definition ret_of (sig : list (string * fsig)) (f : string) : ty :=
  match assoc f sig with Some s => snd s | None => TNo end.
Definition fn_ret (sig : list (string * fsig)) (g : fn) (t : ty) : ty := match g with FUser _ f => ret_of sig f | _ => t end.
Definition first_ty (es : list expr) : ty := match es with e :: _ => ty_of e | [] => TNo end.

(** 389-530 [traverse_expr], [traverse_list]; [rt]: return type of the enclosing function *)
Fixpoint compile (sig : list (string * fsig)) (rt : ty) (e : expr) : frag :=
  let go := compile sig rt in
  match e with
  | ENum _ z => e_num z
  | EBool b => e_bool b
  | EBytes _ v off => e_bytes off (lit_len v)
  | ENone t => e_none t
  | EVar _ x => e_var x
  | ESeq a b => e_seq (ty_of a) (go a) (go b)
  | ELet x a b => e_let x (ty_of a) (go a) (go b)
  | EIf c a b => e_if (ty_of a) (go c) (go a) (go b)
  | EAnd es => e_short false (map go es)
  | EOr es => e_short true (map go es)
  | EEq a es => e_eq (ty_of a) (go a) (map go es)
  | ESome a => e_some (go a)
  | EOk a t => e_ok (go a) t
  | EErr t a => e_err t (go a)
  | EMatchOpt c x a b =>
      e_match_opt (ty_of a) (match ty_of c with TOpt t => t | _ => TNo end) (go c) x (go a) (go b)
  | EMatchResp c x a y b =>
      let '(to, te) := match ty_of c with TResp t e => (t, e) | _ => (TNo, TNo) end in
      e_match_resp (ty_of a) to te (go c) x (go a) y (go b)
  | EUnwrap a b => e_unwrap rt (ty_of a) (go a) (go b)
  | EUnwrapErr a b => e_unwrap_err rt (ty_of a) (go a) (go b)
  | EAsserts c b => e_asserts rt (go c) (go b)
  | ETry a => e_try rt (ty_of a) (go a)
  | EUnwrapPanic a => e_unwrap_panic (ty_of a) (go a)
  | EUnwrapErrPanic a => e_unwrap_err_panic (ty_of a) (go a)
  | EIsSome a | EIsOk a => e_tag (ty_of a) false (go a)
  | EIsNone a | EIsErr a => e_tag (ty_of a) true (go a)
  | EDefault a b => e_default (ty_of a) (go a) (go b)
  | ETuple ts fs => e_tuple ts (map (fun f => (fst f, go (snd f))) fs)
  | EGet k a => e_get k (match ty_of a with TTuple ts | TOpt (TTuple ts) => ts | _ => [] end) (go a)
  | EMerge ts a b =>
      e_merge ts (match ty_of a with TTuple ts => ts | _ => [] end) (match ty_of b with TTuple ts => ts | _ => [] end) (go a) (go b)
  | EList n t es => e_list n t (map go es)
  | EConcat t a b => e_concat t (go a) (go b)
  | EAppend n t a b => e_append n t (go a) (go b)
  | EMaxLen a n _ => e_max_len (ty_of a) (go a) n
  | ELen a => e_len (ty_of a) (go a)
  | EElementAt a i => e_element_at (ty_of a) (go a) (go i)
  | ESlice a i j => e_slice (ty_of a) (go a) (go i) (go j)
  | EReplaceAt a i b => e_replace_at (ty_of a) (ty_of b) (go a) (go i) (go b)
  | EIndexOf a b => e_index_of (ty_of a) (ty_of b) (go a) (go b)
  | EFold g t a b => e_fold g t (ty_of a) (go a) (go b)
  | EMap g n t es => e_map g (fn_ret sig g t) n t (map (fun e => (ty_of e, go e)) es)
  | EArith o t a es => e_arith o t (go a) (map go es)
  | EWord w t es => e_word w t (first_ty es) (map go es)
  | ECall k f t es => e_call k f (ret_of sig f) t (map go es)
  | EAsContract a => e_as_contract (go a)
  | EPrim p es => e_prim p (map go es)
  end.

(** what the traversal adds to [frame_size] (1045, 1736) *)
Fixpoint frame (sig : list (string * fsig)) (e : expr) : Z :=
  let go := frame sig in
  match e with
  | ENum _ _ | EBool _ | EBytes _ _ _ | ENone _ | EVar _ _ => 0
  | ESeq a b | ELet _ a b | EUnwrap a b | EUnwrapErr a b | EAsserts a b | EDefault a b | EMerge _ a b
  | EElementAt a b | EIndexOf a b => go a + go b
  | ESlice a b c => go a + go b + go c
  | EReplaceAt a b c => call_stack_size (ty_of a) false true + go a + go b + go c
  | EFold _ t a b => call_stack_size t true true + go a + go b
  | EMap g n t es =>
      call_stack_size (TList n t) false true + fold_right (fun e n => go e + n) 0 es +
      (if has_in_memory (fn_ret sig g t) then count_in_memory_space (fn_ret sig g t) else 0)
  | EConcat t a b => call_stack_size t false true + go a + go b
  | EAppend n t a b => call_stack_size (TList n t) false true + go a + go b
  | EIf c a b | EMatchOpt c _ a b | EMatchResp c _ a _ b => go c + go a + go b
  | EAnd es | EOr es | EWord _ _ es => fold_right (fun e n => go e + n) 0 es
  | EList n t es => call_stack_size (TList n t) false true + fold_right (fun e n => go e + n) 0 es
  | EEq a es | EArith _ _ a es => go a + fold_right (fun e n => go e + n) 0 es
  | ESome a | EOk a _ | EErr _ a | ETry a | EUnwrapPanic a | EUnwrapErrPanic a
  | EIsSome a | EIsNone a | EIsOk a | EIsErr a | EGet _ a | EMaxLen a _ _ | ELen a => go a
  | ETuple _ fs => fold_right (fun f n => go (snd f) + n) 0 fs
  | EAsContract a => go a
  | ECall _ f _ es =>
      (if has_in_memory (ret_of sig f) then count_in_memory_space (ret_of sig f) else 0) +
      fold_right (fun e n => go e + n) 0 es
  | EPrim p es => prim_frame p + fold_right (fun e n => go e + n) 0 es
  end.

(** ** Functions: 533-670 [traverse_define_function] *)
Definition def_sig (f : fundef) : string * fsig := (fd_name f, (map snd (fd_params f), fd_ret f)).

(** the locals of the parameters *)
Fixpoint param_locals (ps : list (string * ty)) (l : lst) : benv * lst :=
  match ps with
  | [] => ([], l)
  | (x, t) :: ps =>
      let '(is, l) := add_locals (clar2wasm_ty t) l in
      let '(B, l) := param_locals ps l in
      ((x, is) :: B, l)
  end.
Definition param_types (ps : list (string * ty)) : list vt := flat_map (fun p => clar2wasm_ty (snd p)) ps.
(** the allocator at the start of a function.  The pool of borrowed locals is
    shared by all functions (77), but walrus gives each function its own copy of
    a shared [LocalId]; starting from an empty pool only renumbers locals. *)
Definition empty_l : lst := mkl [] [] [].
Definition define_body (ps : list (string * ty)) (t : ty) (body : frag) : func :=
  let '(B, l) := param_locals ps empty_l in
  let '(fp, l) := add_local T32 l in
  let '(c, l) := body 0%nat B l in
  mkfunc (param_types ps) (skipn (length (param_types ps)) (l_tys l)) (clar2wasm_ty t)
    ([GGet "stack-pointer"; LSet fp; Block 0 (length (clar2wasm_ty t)) c; LGet fp; GSet "stack-pointer"]).
Definition define_function (sig : list (string * fsig)) (f : fundef) : func :=
  define_body (fd_params f) (fd_ret f) (compile sig (fd_ret f) (fd_body f)).

(** ** Programs, last definition first *)
Fixpoint compile_defs (ds : list fundef) : list (string * func) :=
  match ds with
  | [] => []
  | d :: ds => (fd_name d, define_function (map def_sig ds) d) :: compile_defs ds
  end.
(** [frame_size] (73) at the end: it is never reset between functions *)
Fixpoint frames (ds : list fundef) : Z :=
  match ds with [] => 0 | d :: ds => frame (map def_sig ds) (fd_body d) + frames ds end.
(** the module: the standard library (names [stdlib.*], which no Clarity function
    can have) and the functions of the program *)
Definition module_env {HS} (host : string -> option (list vt * (list val -> store HS -> result HS))) (ds : list fundef) : env HS :=
  mkenv (fun n => match assoc n std_funs with Some f => Some f | None => assoc n (compile_defs ds) end) host std_table.
