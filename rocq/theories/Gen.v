(** * Compile-time state of the generator: literal memory, frame and workspace
    accounting, argument-count checks.

    Models parts of /repo/clar2wasm/src/wasm_generator.rs (literal memory and
    memory size) and /repo/clar2wasm/src/wasm_utils.rs (argument counts).

    Simplifications: a Rust [String] is the list of its Unicode scalars; the
    [HashMap] of interned literals is an association list; u32 additions wrap
    (release build).  Errors of the generator that have no effect on the
    literal memory are not modelled. *)
From Coq Require Import ZArith String List Bool Lia.
Import ListNotations.
From Verif Require Import Wasm Std StdEnv Spec SpecBytes SpecUtf8 Bytes.
Open Scope string_scope.
Open Scope list_scope.
Open Scope Z_scope.

(** wasm_generator.rs 112-116 [LiteralMemoryEntry] *)
Inductive entry := EAscii (s : list Z) | EUtf8 (s : list Z) | EBytes (b : list Z).

Fixpoint zs_eqb (a b : list Z) : bool :=
  match a, b with
  | [], [] => true
  | x :: a, y :: b => (x =? y) && zs_eqb a b
  | _, _ => false
  end.
Definition entry_eqb (a b : entry) : bool :=
  match a, b with
  | EAscii x, EAscii y | EUtf8 x, EUtf8 y | EBytes x, EBytes y => zs_eqb x y
  | _, _ => false
  end.

(** wasm_generator.rs 37-77: the fields of [WasmGenerator] used here.
    [g_segs]: data segments added to the module, in order (offset, bytes). *)
Record gen := mkgen {
  g_end : Z;                       (* literal_memory_end *)
  g_map : list (entry * Z);        (* literal_memory_offset *)
  g_segs : list (Z * list Z);      (* module.data *)
  g_frame : Z;                     (* frame_size *)
  g_work : Z }.                    (* max_work_space *)

(** wasm_generator.rs 33 and 319-345 [WasmGenerator::new] *)
Definition end_of_standard_data : Z := 1352.
Definition gen0 : gen := mkgen end_of_standard_data [] [] 0 0.

Fixpoint glookup (m : list (entry * Z)) (e : entry) : option Z :=
  match m with
  | [] => None
  | (k, o) :: m => if entry_eqb k e then Some o else glookup m e
  end.

(** common tail of 837-855, 868-881, 891-905 and 968-981: append [data] at the end *)
Definition append (g : gen) (data : list Z) (e : option entry) : gen * (Z * Z) :=
  let off := g_end g in
  let len := Z.of_nat (length data) mod m32 in
  (mkgen ((g_end g + len) mod m32)
         (match e with Some e => (e, off) :: g_map g | None => g_map g end)
         (g_segs g ++ [(off, data)]) (g_frame g) (g_work g), (off, len)).

(** [core::ascii::escape_default] on one byte, and [Display] of [ASCIIData]
    (crate clarity, vm/types/mod.rs: the escaped bytes between double quotes),
    which [to_string] uses at 816. *)
Definition hexd (n : Z) : Z := if n <? 10 then 48 + n else 87 + n.
Definition escape (b : Z) : list Z :=
  if b =? 9 then [92; 116] else if b =? 10 then [92; 110] else if b =? 13 then [92; 114]
  else if b =? 39 then [92; 39] else if b =? 34 then [92; 34] else if b =? 92 then [92; 92]
  else if (32 <=? b) && (b <? 127) then [b]
  else [92; 120; hexd (b / 16); hexd (b mod 16)].
Definition ascii_display (bs : list Z) : list Z := [34] ++ flat_map escape bs ++ [34].

(** What can be put in the literal memory. *)
Inductive lit :=
| LAscii (bs : list Z)            (* (string-ascii ..) literal *)
| LUtf8 (scalars : list Z)        (* (string-utf8 ..) literal *)
| LIdent (name : list Z)          (* add_string_literal *)
| LBytes (bs : list Z)            (* add_bytes_literal *)
| LInt (n : Z) | LUInt (n : Z)    (* add_literal, 923-935 *)
| LPrin (version : Z) (hash : list Z) (name : list Z)  (* 936-951; empty name: standard principal *)
| LBuff (bs : list Z).            (* 952 *)

(** key under which a literal is interned: 816, 826, 862, 886; [None]: add_literal does not intern *)
Definition lit_key (l : lit) : option entry :=
  match l with
  | LAscii bs => Some (EAscii (ascii_display bs))
  | LUtf8 s => Some (EUtf8 s)
  | LIdent n => Some (EAscii n)
  | LBytes b => Some (EBytes b)
  | _ => None
  end.

(** bytes appended for a literal: 820, 830-834, 875, 897, 923-952.
    Identifiers are [str], stored as UTF-8. *)
Definition lit_data (l : lit) : list Z :=
  match l with
  | LAscii bs => bs
  | LUtf8 s => flat_map be4 s
  | LIdent n => utf8 n
  | LBytes b => b
  | LInt n => le_bytes 8 ((n mod 2 ^ 128) mod 2 ^ 64) ++ le_bytes 8 ((n mod 2 ^ 128) / 2 ^ 64)
  | LUInt n => le_bytes 8 (n mod 2 ^ 64) ++ le_bytes 8 (n / 2 ^ 64)
  | LPrin v h n => [v] ++ h ++ [Z.of_nat (length n)] ++ n
  | LBuff b => b
  end.

(** length returned on a hit: 818, 828, 864, 888 *)
Definition lit_hit_len (l : lit) : Z :=
  match l with
  | LAscii bs => Z.of_nat (length bs) mod m32
  | LUtf8 s => (Z.of_nat (length s) mod m32 * 4) mod m32
  | _ => Z.of_nat (length (lit_data l)) mod m32
  end.

(** 809-982: add_clarity_string_literal, add_string_literal, add_bytes_literal, add_literal *)
Definition add_lit (g : gen) (l : lit) : gen * (Z * Z) :=
  match lit_key l with
  | Some e =>
      match glookup (g_map g) e with
      | Some off => (g, (off, lit_hit_len l))
      | None => append g (lit_data l) (Some e)
      end
  | None => append g (lit_data l) None
  end.

(** 1003-1048: create_call_stack_local adds [size] to the frame (also 1736);
    2162-2164: ensure_work_space *)
Definition add_frame (g : gen) (size : Z) : gen :=
  mkgen (g_end g) (g_map g) (g_segs g) (g_frame g + size) (g_work g).
Definition ensure_work (g : gen) (n : Z) : gen :=
  mkgen (g_end g) (g_map g) (g_segs g) (g_frame g) (Z.max (g_work g) n).

(** 364-381 [set_memory_pages] *)
Definition memory_pages (g : gen) : Z :=
  let total := ((g_end g + g_frame g mod m32) mod m32 + g_work g) mod m32 in
  total / 65536 + (if 0 <? total mod 65536 then 1 else 0).

(** Instantiation of the module: active data segments are copied in order into
    zeroed memory (WebAssembly core specification 4.5.4); the standard data
    segments come first (standard.wat 351-378), then those of the generator. *)
Definition init_mem (segs : list (Z * list Z)) (pages : Z) : mem :=
  fold_left (fun m s => write_bytes m (fst s) (snd s)) segs (mkmem (fun _ => 0) (pages * 65536)).
Definition instance_mem (g : gen) : mem := init_mem (std_data ++ g_segs g) (memory_pages g).

(** 410-412: initial stack pointer *)
Definition initial_stack_pointer (g : gen) : Z := g_end g.

(** A compilation is a sequence of such steps. *)
Inductive gstep := GLit (l : lit) | GFrame (size : Z) | GWork (n : Z).
Definition gdo (g : gen) (s : gstep) : gen :=
  match s with GLit l => fst (add_lit g l) | GFrame n => add_frame g n | GWork n => ensure_work g n end.
Definition compile (ss : list gstep) : gen := fold_left gdo ss gen0.
(** where the next literal [l] is put after the steps [ss] *)
Definition placed (ss : list gstep) (l : lit) : Z * Z := snd (add_lit (compile ss) l).

(** ** Argument-count checks: wasm_utils.rs 1743-1792 *)
Inductive arity_check := Exact | AtLeast | AtMost.

(** error_mapping.rs 78-85 *)
Definition code_of_check (c : arity_check) : Z :=
  match c with Exact => 13 | AtLeast => 14 | AtMost => 15 end.
Definition le4b (n : Z) : list Z := le_bytes 4 n.

(** [handle_mismatch] 1758-1771: state and emitted instructions *)
Definition handle_mismatch (g : gen) (expected actual code : Z) : gen * list instr :=
  let '(g1, (off, len1)) := add_lit g (LBytes (le4b expected)) in
  let '(g2, (_, len2)) := add_lit g1 (LBytes (le4b actual)) in
  (g2, [Const (VI32 off); GSet "runtime-error-arg-offset";
        Const (VI32 ((len1 + len2) mod m32)); GSet "runtime-error-arg-len";
        Const (VI32 code); Call "stdlib.runtime-error"]).

(** [check_argument_count] 1749-1792; [None]: Ok, [Some code]: the error, with the code emitted *)
Definition check_argument_count (g : gen) (expected actual : Z) (c : arity_check) : gen * option (list instr) :=
  let e := expected mod m32 in
  let a := actual mod m32 in
  let bad := match c with Exact => negb (e =? a) | AtLeast => a <? e | AtMost => e <? a end in
  if bad then let '(g', is) := handle_mismatch g e a (code_of_check c) in (g', Some is) else (g, None).
