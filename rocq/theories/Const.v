(** * Constants: words/constants.rs, wasm_generator.rs 1514-1551, linker.rs 5062-5165 *)
From Coq Require Import ZArith String List Bool.
Import ListNotations.
From Verif Require Import Wasm Std StdEnv Clar Codec Emit Ledger Ast SpecLang Lang.
Open Scope string_scope.
Open Scope list_scope.
Open Scope Z_scope.

(** ** The type of a value: [TypeSignature::type_of], clarity crate (as its values are
    built by wasm_utils.rs 300-560: list and tuple types from the elements) *)

(** [TypeSignature::least_supertype] of two types of values of one common type; its error
    cases are replaced by the first type *)
Fixpoint lub (a b : ty) {struct a} : ty :=
  match a, b with
  | TNo, _ => b
  | _, TNo => a
  | TBuff n, TBuff m => TBuff (Z.max n m)
  | TAscii n, TAscii m => TAscii (Z.max n m)
  | TUtf8 n, TUtf8 m => TUtf8 (Z.max n m)
  | TList n a, TList m b => TList (Z.max n m) (lub a b)
  | TOpt a, TOpt b => TOpt (lub a b)
  | TResp a e, TResp b f => TResp (lub a b) (lub e f)
  | TTuple x, TTuple y =>
      TTuple ((fix go (x y : list (string * ty)) {struct x} : list (string * ty) :=
        match x, y with
        | (k, a) :: x, (_, b) :: y => (k, lub a b) :: go x y
        | _, _ => x
        end) x y)
  | _, _ => a
  end.
Fixpoint value_type (v : value) : ty :=
  match v with
  | CInt _ => TInt
  | CUInt _ => TUInt
  | CBool _ => TBool
  | CPrin _ => TPrin
  | CCallable _ i => TTrait i
  | CBuff bs => TBuff (Z.of_nat (length bs))
  | CAscii bs => TAscii (Z.of_nat (length bs))
  | CUtf8 cs => TUtf8 (Z.of_nat (length cs))
  | CList vs => TList (Z.of_nat (length vs)) (fold_right (fun v t => lub (value_type v) t) TNo vs)
  | CNone => TOpt TNo
  | CSome v => TOpt (value_type v)
  | COk v => TResp (value_type v) TNo
  | CErr v => TResp TNo (value_type v)
  | CTuple fs => TTuple (map (fun f => (fst f, value_type (snd f))) fs)
  end.

(** ** The host's side *)

(** [contract_analysis.get_variable_type] and [contract_context.variables] *)
Record consts := mkconsts { c_decl : list Z -> option ty; c_val : list Z -> option value }.
Definition set_const (h : consts) (n : list Z) (v : value) : consts := mkconsts (c_decl h) (nupd (c_val h) n (Some v)).

(** linker.rs 5062-5112: the value is read with the constant's declared type *)
Definition i_save_constant (a : list val) (st : store consts) : result consts :=
  match a with
  | [VI32 no; VI32 nl; VI32 vo; VI32 _] =>
      match read_name (smem st) no nl with
      | Some n =>
          match c_decl (shost st) n with
          | Some t =>
              match read_from_wasm_indirect (smem st) t (sgn32 vo) with
              | Some v => RVals [] (mkstore (smem st) (sglob st) (set_const (shost st) n v))
              | None => RTrap THost st
              end
          | None => RTrap THost st
          end
      | None => RTrap THost st
      end
  | _ => RStuck
  end.
(** linker.rs 5114-5165: the value is written with the type of the value *)
Definition i_load_constant (a : list val) (st : store consts) : result consts :=
  match a with
  | [VI32 no; VI32 nl; VI32 vo; VI32 _] =>
      match read_name (smem st) no nl with
      | Some n =>
          match c_val (shost st) n with
          | Some v =>
              match write_to_wasm (smem st) (value_type v) (sgn32 vo) (sgn32 vo + get_type_size (value_type v)) v true with
              | Some (m, _, _) => RVals [] (mkstore m (sglob st) (shost st))
              | None => RTrap THost st
              end
          | None => RTrap THost st
          end
      | None => RTrap THost st
      end
  | _ => RStuck
  end.
Definition const_host : list (string * (list vt * (list val -> store consts -> result consts))) :=
  [("stdlib.save_constant", ([T32; T32; T32; T32], i_save_constant)); ("stdlib.load_constant", ([T32; T32; T32; T32], i_load_constant))].

(** ** The generated code *)

(** words/constants.rs 74-109: a constant that is not a literal; [vo] is [literal_memory_end],
    where its value goes, [no] the address of its name *)
Definition e_define_constant (n : list Z) (no vo : Z) (t : ty) (a : frag) : frag := fun d B l =>
  let '(ca, l) := a d B l in
  let '(ol, l) := add_local T32 l in
  let '(cw, l) := write_to_memory t ol 0 l in
  (ca ++ [Const (VI32 vo); LSet ol] ++ cw ++
   name_code n no ++ [Const (VI32 vo); Const (VI32 (get_type_size t mod m32)); Call "stdlib.save_constant"], l).
(** 42-72, 98-109: a literal; [vo] is where the linker put it: its words for integers, its
    address and length for everything else ([literal_words]); [vl] is not used by the host *)
Definition e_define_literal (n : list Z) (no vo vl : Z) : frag := fun _ _ l =>
  (name_code n no ++ [Const (VI32 vo); Const (VI32 vl); Call "stdlib.save_constant"], l).

(** wasm_generator.rs 1514-1551, used at the type it was declared with ([duck_type] to
    the same type emits nothing) *)
Definition e_constant (n : list Z) (no : Z) (t : ty) : frag := fun d B l =>
  let '(o, size, cc, l) := create_call_stack_local t true true l in
  (cc ++ name_code n no ++ [LGet o; Const (VI32 (size mod m32)); Call "stdlib.load_constant"] ++ read_from_memory t o 0, l).
