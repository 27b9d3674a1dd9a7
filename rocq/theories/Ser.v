(** * Consensus serialization code emitted by the generator

    Models /repo/clar2wasm/src/serialize.rs 12-940 and the word
    to-consensus-buff? of /repo/clar2wasm/src/words/consensus_buff.rs 22-100.
    Same simplifications as Emit.v; [lit k] is the address of the string literal
    the generator adds to the data section for the tuple key [k]
    (wasm_generator.rs [add_string_literal], which interns it). *)
From Coq Require Import ZArith String List Bool Lia.
Import ListNotations.
From Verif Require Import Wasm Clar Emit.
Open Scope Z_scope.

Section Ser.
Variable lit : string -> Z.

(** the local holding [ol + off]: serialize.rs 41-50, 120-129 *)
Definition ser_ptr (ol : nat) (off : Z) (w : nat) : list instr :=
  if 0 <? off then [LGet ol; Const (VI32 off); B32 Add; LTee w] else [LGet ol; LTee w].

(** 21-93 [serialize_integer] *)
Definition ser_int (prefix : Z) (ol : nat) (off : Z) (l : lst) : list instr * lst :=
  let '(high, l) := add_local T64 l in
  let '(low, l) := add_local T64 l in
  let '(w, l) := add_local T32 l in
  ([LSet high; LSet low] ++ ser_ptr ol off w ++
   [Const (VI32 prefix); Store S32_8 0;
    LGet w; Const (VI32 1); B32 Add; LTee w;
    LGet high; Call "stdlib.store-i64-be";
    LGet w; Const (VI32 8); B32 Add; LTee w;
    LGet low; Call "stdlib.store-i64-be";
    Const (VI32 17)], l).

(** 103-222 [serialize_principal]; PRINCIPAL_BYTES = 21, STANDARD_PRINCIPAL_BYTES = 22 *)
Definition ser_prin (ol : nat) (off : Z) (l : lst) : list instr * lst :=
  let '(po, l) := add_local T32 l in
  let '(pl, l) := add_local T32 l in
  let '(w, l) := add_local T32 l in
  ([LSet pl; LSet po] ++ ser_ptr ol off w ++
   [Const (VI32 1); B32 Add; LGet po; Const (VI32 21); MemCopy;
    LGet pl; Const (VI32 22); R32 GtS;
    If 0 1
      [LGet w; Const (VI32 22); B32 Add; LGet pl; Const (VI32 22); B32 Sub; Store S32_8 0;
       LGet w; Const (VI32 23); B32 Add; LGet po; Const (VI32 22); B32 Add; LGet pl; Const (VI32 22); B32 Sub; MemCopy;
       LGet pl; Const (VI32 1); B32 Add;
       LGet w; Const (VI32 6); Store S32_8 0]
      [Const (VI32 22);
       LGet w; Const (VI32 5); Store S32_8 0]], l).

(** the type prefix: [local_get(offset_local).i32_const(p).store8(offset)] *)
Definition ser_prefix (p : Z) (ol : nat) (off : Z) : list instr := [LGet ol; Const (VI32 p); Store S32_8 off].

(** 570-628 [serialize_buffer], 636-694 [serialize_string_ascii] *)
Definition ser_bytes (prefix : Z) (ol : nat) (off : Z) (l : lst) : list instr * lst :=
  let '(w, l) := add_local T32 l in
  let '(r, l) := add_local T32 l in
  let '(n, l) := add_local T32 l in
  ([LSet n; LSet r] ++ ser_prefix prefix ol off ++
   [LGet ol; Const (VI32 (off + 1)); B32 Add; LTee w;
    LGet n; Call "stdlib.store-i32-be";
    LGet w; Const (VI32 4); B32 Add; LTee w;
    LGet r; LGet n; MemCopy;
    LGet n; Const (VI32 5); B32 Add], l).

(** 702-771 [serialize_string_utf8] *)
Definition ser_utf8 (ol : nat) (off : Z) (l : lst) : list instr * lst :=
  let '(w, l) := add_local T32 l in
  let '(r, l) := add_local T32 l in
  let '(n, l) := add_local T32 l in
  let '(u, l) := add_local T32 l in
  ([LSet n; LSet r] ++ ser_prefix 14 ol off ++
   [LGet ol; Const (VI32 (off + 5)); B32 Add; LSet w;
    LGet r; LGet n; LGet w; Call "stdlib.convert-scalars-to-utf8"; LTee u;
    LGet ol; Const (VI32 (off + 1)); B32 Add; LGet u; Call "stdlib.store-i32-be";
    Const (VI32 5); B32 Add], l).

(** 895-940 [serialize_to_memory] and, inlined because they are mutually recursive with
    it, 231-313 [serialize_response], 322-355 [serialize_bool], 364-431
    [serialize_optional], 441-562 [serialize_list], 781-890 [serialize_tuple].

    The tuple code keeps its saved locals last word first and pops them from the end: the
    fields' words are pushed back first word first, [firstn] of the locals listed in
    word order, as here. *)
Fixpoint serialize_to_memory (t : ty) (ol : nat) (off : Z) (l : lst) {struct t} : list instr * lst :=
  match t with
  | TInt => ser_int 0 ol off l
  | TUInt => ser_int 1 ol off l
  | TPrin | TTrait _ => ser_prin ol off l
  | TBuff _ => ser_bytes 2 ol off l
  | TAscii _ => ser_bytes 13 ol off l
  | TUtf8 _ => ser_utf8 ol off l
  | TBool =>
      let '(b, l) := add_local T32 l in
      ([LSet b; LGet ol; Const (VI32 3); Const (VI32 4); LGet b; Select; Store S32_8 off; Const (VI32 1)], l)
  | TNo => ([], l)
  | TResp t' e =>
      let '(es, c1, l) := save_to_locals e l in
      let '(os, c2, l) := save_to_locals t' l in
      let '(co, l) := serialize_to_memory t' ol (off + 1) l in
      let '(ce, l) := serialize_to_memory e ol (off + 1) l in
      (c1 ++ c2 ++
       [If 0 1 (ser_prefix 7 ol off ++ push_locals os ++ co) (ser_prefix 8 ol off ++ push_locals es ++ ce);
        Const (VI32 1); B32 Add], l)
  | TOpt t' =>
      let '(is, c, l) := save_to_locals t' l in
      let '(cs, l) := serialize_to_memory t' ol (off + 1) l in
      (c ++ [If 0 1 (ser_prefix 10 ol off ++ push_locals is ++ cs ++ [Const (VI32 1); B32 Add])
                    (ser_prefix 9 ol off ++ [Const (VI32 1)])], l)
  | TList _ t' =>
      let '(w, l) := add_local T32 l in
      let '(r, l) := add_local T32 l in
      let '(n, l) := add_local T32 l in
      let size := get_type_size t' in
      let '(ce, l) := serialize_to_memory t' w 0 l in
      (ser_prefix 11 ol off ++ [LSet n; LSet r; LGet n; Eqz32;
       If 0 1
         [LGet ol; Const (VI32 0); Store S32 (off + 1); Const (VI32 5)]
         [LGet ol; Const (VI32 (off + 1)); B32 Add; LTee w;
          LGet n; Const (VI32 size); B32 DivU; Call "stdlib.store-i32-be";
          LGet w; Const (VI32 4); B32 Add; LSet w;
          Loop 0 0
            (read_from_memory t' r 0 ++ ce ++
             [LGet w; B32 Add; LSet w;
              LGet r; Const (VI32 size); B32 Add; LSet r;
              LGet n; Const (VI32 size); B32 Sub; LTee n; BrIf 0]);
          LGet w; LGet ol; Const (VI32 off); B32 Add; B32 Sub]], l)
  | TTuple fs =>
      let '(w, l) := add_local T32 l in
      let '(is, c, l) := save_to_locals (TTuple fs) l in
      let '(cf, l) :=
        (fix go (fs : list (string * ty)) (is : list nat) (l : lst) {struct fs} : list instr * lst :=
           match fs with
           | [] => ([], l)
           | (k, t') :: fs =>
               let n := length (clar2wasm_ty t') in
               let '(cv, l) := serialize_to_memory t' w 0 l in
               let '(cr, l) := go fs (skipn n is) l in
               ([Const (VI32 (Z.of_nat (String.length k))); Store S32_8 0;
                 LGet w; Const (VI32 1); B32 Add; LTee w;
                 Const (VI32 (lit k)); Const (VI32 (Z.of_nat (String.length k))); MemCopy;
                 LGet w; Const (VI32 (Z.of_nat (String.length k))); B32 Add; LSet w] ++
                push_locals (firstn n is) ++ cv ++
                [LGet w; B32 Add; LTee w] ++ cr, l)
           end) fs is l in
      (c ++ ser_prefix 12 ol off ++
       [LGet ol; Const (VI32 (off + 1)); B32 Add; LTee w;
        Const (VI32 (Z.of_nat (length fs))); Call "stdlib.store-i32-be";
        LGet w; Const (VI32 4); B32 Add; LTee w] ++ cf ++
       [LGet ol; Const (VI32 off); B32 Add; B32 Sub], l)
  end.

(** consensus_buff.rs 27-98 [ToConsensusBuff::traverse], after the argument (of type [t]) has been
    evaluated; [n] is the maximal length in the word's type, (optional (buff n)) *)
Definition to_consensus_buff (t : ty) (n : Z) (l : lst) : list instr * lst :=
  let '(o, _, c, l) := create_call_stack_local (TOpt (TBuff n)) false true l in
  let '(ln, l) := add_local T32 l in
  let '(cs, l) := serialize_to_memory t o 0 l in
  (c ++ cs ++
   [LSet ln; LGet ln; Const (VI32 max_value_size); R32 LeU;
    If 0 3
      [LGet o; LGet ln; B32 Add; GSet "stack-pointer"; Const (VI32 1); LGet o; LGet ln]
      [Const (VI32 0); Const (VI32 0); Const (VI32 0)]], l).
End Ser.
