(** * Code emission helpers of the generator

    Models parts of /repo/clar2wasm/src/wasm_generator.rs.  An emission function
    takes the state of the local-variable allocator and returns the instructions
    it appends to the builder together with the new allocator state.

    Simplifications:
    - a walrus [LocalId] is a Wasm local index, in allocation order (walrus
      renumbers locals per function when it writes the module);
    - a branch to an instruction sequence id is a relative label depth;
    - u32/i32 arithmetic on constant offsets and sizes is done on integers (the
      sizes of Clarity types stay far below 2^31);
    - [Err(GeneratorError)] cases that only concern ill-typed trees are left out;
    - cost-tracking code ([charge]) is off ([cost_context = None]). *)
From Coq Require Import ZArith String List Bool Lia.
Import ListNotations.
From Verif Require Import Wasm Clar.
Open Scope Z_scope.

(** ** Local variables *)

(** the locals added so far to the current function, and [local_pool] (77): the
    borrowed locals given back, most recently returned first *)
Record lst := mkl { l_tys : list vt; l_p32 : list nat; l_p64 : list nat }.

(** [module.locals.add] *)
Definition add_local (t : vt) (l : lst) : nat * lst :=
  (length (l_tys l), mkl (l_tys l ++ [t]) (l_p32 l) (l_p64 l)).

(** wasm_generator.rs 1050-1061 [borrow_local] *)
Definition borrow (t : vt) (l : lst) : nat * lst :=
  match t with
  | T64 => match l_p64 l with
           | i :: r => (i, mkl (l_tys l) (l_p32 l) r)
           | [] => add_local t l
           end
  | _ => match l_p32 l with
         | i :: r => (i, mkl (l_tys l) r (l_p64 l))
         | [] => add_local t l
         end
  end.

(** 300-309 [Drop for BorrowedLocal] *)
Definition release (t : vt) (i : nat) (l : lst) : lst :=
  match t with
  | T64 => mkl (l_tys l) (l_p32 l) (i :: l_p64 l)
  | _ => mkl (l_tys l) (i :: l_p32 l) (l_p64 l)
  end.

Fixpoint add_locals (ts : list vt) (l : lst) : list nat * lst :=
  match ts with
  | [] => ([], l)
  | t :: ts => let '(i, l) := add_local t l in let '(is, l) := add_locals ts l in (i :: is, l)
  end.

(** 1560-1581 [save_to_locals] with [fix_ordering = true] (the only use made of
    it in the code modelled): locals are added and set for the last word first;
    the result lists them first word first. *)
Definition save_to_locals (t : ty) (l : lst) : list nat * list instr * lst :=
  let '(is, l) := add_locals (rev (clar2wasm_ty t)) l in
  (rev is, map LSet is, l).

(** pushing saved values back: [for l in locals { builder.local_get(l) }] *)
Definition push_locals (is : list nat) : list instr := map LGet is.

(** 252-257 [drop_value] *)
Definition drop_value (t : ty) : list instr := map (fun _ => Drop) (clar2wasm_ty t).

(** 185-201 [add_placeholder_for_type], [add_placeholder_for_clarity_type] *)
Definition placeholder (t : vt) : instr := Const (zero_of t).
Definition placeholders (t : ty) : list instr := map placeholder (clar2wasm_ty t).

(** 1001-1048 [create_call_stack_local]: the local holding the address, the size *)
Definition call_stack_size (t : ty) (repr value : bool) : Z :=
  match value, repr with
  | true, true => get_type_in_memory_size t true + get_type_size t
  | true, false => get_type_in_memory_size t false
  | false, _ => get_type_size t
  end.
Definition create_call_stack_local (t : ty) (repr value : bool) (l : lst) : nat * Z * list instr * lst :=
  let size := call_stack_size t repr value in
  let '(o, l) := add_local T32 l in
  (o, size, [GGet "stack-pointer"; LTee o; Const (VI32 (size mod m32)); B32 Add; GSet "stack-pointer"], l).

(** ** Values to and from memory *)

(** 1066-1230 [write_to_memory] *)
Fixpoint write_to_memory (t : ty) (ol : nat) (off : Z) (l : lst) {struct t} : list instr * lst :=
  match t with
  | TInt | TUInt =>
      let '(high, l) := borrow T64 l in
      let '(low, l) := borrow T64 l in
      ([LSet high; LSet low;
        LGet ol; LGet low; Store S64 off;
        LGet ol; LGet high; Store S64 (off + 8)],
       release T64 high (release T64 low l))
  | TPrin | TTrait _ | TBuff _ | TAscii _ | TUtf8 _ | TList _ _ =>
      let '(so, l) := add_local T32 l in
      let '(sl, l) := add_local T32 l in
      ([LSet sl; LSet so;
        LGet ol; LGet so; Store S32 off;
        LGet ol; LGet sl; Store S32 (off + 4)], l)
  | TBool =>
      let '(b, l) := add_local T32 l in
      ([LSet b; LGet ol; LGet b; Store S32 off], l)
  | TNo => ([Drop; LGet ol; Const (VI32 0); Store S32 off], l)
  | TOpt t' =>
      let '(c, l) := write_to_memory t' ol (off + 4) l in
      let '(v, l) := add_local T32 l in
      (c ++ [LSet v; LGet ol; LGet v; Store S32 off], l)
  | TResp t' e =>
      let '(c1, l) := write_to_memory e ol (off + 4 + get_type_size t') l in
      let '(c2, l) := write_to_memory t' ol (off + 4) l in
      let '(v, l) := add_local T32 l in
      (c1 ++ c2 ++ [LSet v; LGet ol; LGet v; Store S32 off], l)
  | TTuple fs =>
      (* last field first, each at its own offset *)
      (fix go (fs : list (string * ty)) (off : Z) (l : lst) {struct fs} : list instr * lst :=
         match fs with
         | [] => ([], l)
         | (_, t') :: fs =>
             let '(c2, l) := go fs (off + get_type_size t') l in
             let '(c1, l) := write_to_memory t' ol off l in
             (c2 ++ c1, l)
         end) fs off l
  end.

(** 1235-1360 [read_from_memory]; the size it returns is [get_type_size] *)
Fixpoint read_from_memory (t : ty) (ol : nat) (off : Z) {struct t} : list instr :=
  match t with
  | TInt | TUInt => [LGet ol; Load L64 off; LGet ol; Load L64 (off + 8)]
  | TOpt t' => [LGet ol; Load L32 off] ++ read_from_memory t' ol (off + 4)
  | TResp t' e =>
      [LGet ol; Load L32 off] ++ read_from_memory t' ol (off + 4) ++
      read_from_memory e ol (off + 4 + get_type_size t')
  | TPrin | TTrait _ | TBuff _ | TAscii _ | TUtf8 _ | TList _ _ =>
      [LGet ol; Load L32 off; LGet ol; Load L32 (off + 4)]
  | TTuple fs =>
      (fix go (fs : list (string * ty)) (off : Z) {struct fs} : list instr :=
         match fs with
         | [] => []
         | (_, t') :: fs => read_from_memory t' ol off ++ go fs (off + get_type_size t')
         end) fs off
  | TNo => [Const (VI32 0)]
  | TBool => [LGet ol; Load L32 off]
  end.
