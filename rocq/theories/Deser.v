(** * Consensus deserialization code emitted by the generator

    Models /repo/clar2wasm/src/deserialize.rs 16-1843 and the word
    from-consensus-buff? of /repo/clar2wasm/src/words/consensus_buff.rs 95-185.
    Same simplifications as Emit.v; [tab ks] is the address of the table of the keys
    [ks] that [deserialize_tuple] adds to the data section (1015-1036).  [NoType] and
    [ListUnionType] are [unreachable!] in the generator; the model emits nothing. *)
From Coq Require Import ZArith String List Bool Lia.
Import ListNotations.
From Verif Require Import Wasm Clar Emit.
Open Scope Z_scope.

(** [(optional T)] being none, for a T of two i32 words *)
Definition none3 : list instr := [Const (VI32 0); Const (VI32 0); Const (VI32 0)].
(** [local += n] *)
Definition bump (x : nat) (n : Z) : list instr := [LGet x; Const (VI32 n); B32 Add; LSet x].

(** 26-125 [deserialize_integer] *)
Definition swap_mask : Z := 0x000102030405060708090a0b0c0d0e0f.
Definition deser_int (tag : Z) (ol el : nat) (l : lst) : list instr * lst :=
  let '(tmp, l) := add_local T128 l in
  let none := [Const (VI32 0); Const (VI64 0); Const (VI64 0)] in
  ([LGet ol; Const (VI32 17); B32 Add; LGet el; R32 GtU;
    If 0 3 none
      [LGet ol; Load L32_8u 0; Const (VI32 tag); R32 Eq;
       If 0 3
         ([Const (VI32 1); LGet ol; Load LV128 1; Const (VV128 swap_mask); VSwizzle; LTee tmp; VExtract64 0;
           LGet tmp; VExtract64 1] ++ bump ol 17)
         none]], l).

(** 137-313 [deserialize_principal]; PRINCIPAL_BYTES = 21, STANDARD_PRINCIPAL_BYTES = 22 *)
Definition deser_prin (ol el rl : nat) (l : lst) : list instr * lst :=
  let '(tp, l) := add_local T32 l in
  let '(po, l) := add_local T32 l in
  let '(cl, l) := add_local T32 l in
  let '(ce, l) := add_local T32 l in
  ([Block 0 3
     [LGet ol; Const (VI32 22); B32 Add; LGet el; R32 GtU; If 0 0 (none3 ++ [Br 1]) [];
      LGet ol; Load L32_8u 0; LTee tp; Const (VI32 5); R32 Eq;
      If 0 0
        ([Const (VI32 1); LGet rl; LTee po; Const (VI32 22); B32 Add; LSet rl;
          LGet po; LGet ol; Const (VI32 1); B32 Add; Const (VI32 21); MemCopy;
          LGet po; Const (VI32 0); Store S32_8 21] ++ bump ol 22 ++
         [LGet po; Const (VI32 22); Br 1]) [];
      LGet tp; Const (VI32 6); R32 Eq;
      If 0 3
        [LGet ol; Load L32_8u 22; LTee cl; LGet ol; B32 Add; Const (VI32 23); B32 Add; LTee ce; LGet el; R32 GtU;
         If 0 0 (none3 ++ [Br 2]) [];
         Const (VI32 1); LGet ol; Const (VI32 1); B32 Add; LGet cl; Const (VI32 22); B32 Add;
         LGet ce; LSet ol]
        none3]], l).

(** 324-418 [deserialize_bool] *)
Definition deser_bool (ol el : nat) (l : lst) : list instr * lst :=
  let '(tp, l) := add_local T32 l in
  ([Block 0 2
     [LGet ol; LGet el; R32 GeU; If 0 0 [Const (VI32 0); Const (VI32 0); Br 1] [];
      LGet ol; Load L32_8u 0; LTee tp; Const (VI32 3); R32 Eq;
      If 0 0 ([Const (VI32 1); Const (VI32 1)] ++ bump ol 1 ++ [Br 1]) [];
      LGet tp; Const (VI32 4); R32 Eq;
      If 0 2 ([Const (VI32 1); Const (VI32 0)] ++ bump ol 1) [Const (VI32 0); Const (VI32 0)]]], l).

(** 1368-1493 [deserialize_buffer] ([check] empty) and 1501-1643 [deserialize_string_ascii]
    ([check] validates the characters) *)
Definition deser_bytes (tag : Z) (check : nat -> list instr) (ol el : nat) (n : Z) (l : lst) : list instr * lst :=
  let '(len, l) := add_local T32 l in
  let '(ce, l) := add_local T32 l in
  ([Block 0 3
     [LGet ol; Const (VI32 5); B32 Add; LGet el; R32 GtU; If 0 0 (none3 ++ [Br 1]) [];
      LGet ol; Load L32_8u 0; Const (VI32 tag); R32 Eq;
      If 0 3
        ([LGet ol; Const (VI32 1); B32 Add; Call "stdlib.load-i32-be"; LTee len; Const (VI32 n); R32 GtU;
          If 0 0 (none3 ++ [Br 2]) [];
          LGet len; LGet ol; B32 Add; Const (VI32 5); B32 Add; LTee ce; LGet el; R32 GtU;
          If 0 0 (none3 ++ [Br 2]) [];
          Const (VI32 1)] ++ check len ++
         [LGet ol; Const (VI32 5); B32 Add; LGet len; LGet ce; LSet ol])
        none3]], l).
Definition ascii_check (ol : nat) (len : nat) : list instr :=
  [LGet ol; Const (VI32 5); B32 Add; LGet len; Call "stdlib.is-valid-string-ascii"; Eqz32;
   If 0 0 (none3 ++ [Br 2]) []].

(** 1651-1753 [deserialize_string_utf8] *)
Definition deser_utf8 (ol el rl : nat) (n : Z) (l : lst) : list instr * lst :=
  let '(len, l) := add_local T32 l in
  ([LGet ol; Const (VI32 5); B32 Add; LGet el; R32 LeU;
    LGet ol; Load L32_8u 0; Const (VI32 14); R32 Eq; B32 And;
    If 0 3
      [LGet ol; Const (VI32 1); B32 Add; Call "stdlib.load-i32-be"; LTee len;
       LGet ol; Const (VI32 5); B32 Add; LTee ol; B32 Add; LGet el; R32 LeU;
       If 0 3
         ([LGet ol; LGet len; LGet rl; Const (VI32 n); Call "stdlib.utf8-to-string-utf8";
           LGet ol; LGet len; B32 Add; LSet ol] ++ bump rl (n * 4))
         none3]
      none3], l).

(** the nested blocks of the switch in [deserialize_tuple]: [switch_case_blocks[0]] holds the
    switch, each further block holds the previous one followed by the code of a case
    (1141-1278) *)
Fixpoint nest (blk : list instr) (cases : list (list instr)) : list instr :=
  match cases with
  | [] => blk
  | c :: cases => nest (Block 0 0 blk :: c) cases
  end.

(** names of the fields, and the length of their table (1015-1036) *)
Definition table_len (ks : list string) : Z :=
  4 + 5 * Z.of_nat (length ks) + fold_right (fun k n => Z.of_nat (String.length k) + n) 0 ks.
(** one local per word of each field, in order (1050-1058) *)
Fixpoint field_locals (ts : list ty) (l : lst) : list (list nat) * lst :=
  match ts with
  | [] => ([], l)
  | t :: ts => let '(is, l) := add_locals (clar2wasm_ty t) l in let '(iss, l) := field_locals ts l in (is :: iss, l)
  end.
(** [1u32 << (i % 32)]; a full word of the bitset; the bits of the last word *)
Definition bit_of (i : nat) : Z := 2 ^ Z.of_nat (i mod 32).
Definition last_bits (n : nat) : Z := if (n mod 32 =? 0)%nat then m32 - 1 else 2 ^ Z.of_nat (n mod 32) - 1.

Section Deser.
Variable tab : list string -> Z.

(** 1153-1211 the switch *)
Definition tuple_switch (ks : list string) (ol el nm : nat) : list instr :=
  let n := length ks in
  [LGet ol; LGet el; R32 GeU; BrIf (n + 2);
   LGet ol; Load L32_8u 0; LTee nm;
   LGet ol; Const (VI32 1); B32 Add; LTee ol; B32 Add; LGet el; R32 GtU; BrIf (n + 2);
   Const (VI32 (tab ks)); Const (VI32 (table_len ks)); LGet ol; LGet nm; Call "stdlib.bsearch-clarity-name";
   LGet ol; LGet nm; B32 Add; LSet ol;
   BrTable (seq 0 n) n].

(** 1214-1268 the code of case [i] of [n] *)
Definition tuple_case (n i : nat) (bit rem : nat) (cd : list instr) (vs : list nat) : list instr :=
  [LGet bit; Const (VI32 (bit_of i)); B32 And; BrIf (n - i + 1)] ++ cd ++ map LSet (rev vs) ++
  [Eqz32; BrIf (n - i + 1);
   LGet bit; Const (VI32 (bit_of i)); B32 Or; LSet bit;
   LGet rem; Const (VI32 1); B32 Sub; LTee rem; BrIf (n - i); Br (n - i + 1)].

(** 1279-1303 an unknown key *)
Definition tuple_default (ol el nm rem : nat) : list instr :=
  [LGet ol; LGet nm; B32 Sub; LGet nm; Call "stdlib.check-clarity-name"; Eqz32; BrIf 1;
   LGet ol; LGet el; Call "stdlib.skip-unknown-value"; LTee ol; Eqz32; BrIf 1;
   LGet rem; Const (VI32 1); B32 Sub; LTee rem; BrIf 0].

(** 1763-1842 [deserialize_from_memory] and, inlined because they are mutually recursive with
    it, 429-573 [deserialize_optional], 585-761 [deserialize_response], 772-969
    [deserialize_list], 980-1360 [deserialize_tuple] *)
Fixpoint deserialize_from_memory (t : ty) (ol el rl : nat) (l : lst) {struct t} : list instr * lst :=
  match t with
  | TInt => deser_int 0 ol el l
  | TUInt => deser_int 1 ol el l
  | TPrin | TTrait _ => deser_prin ol el rl l
  | TBool => deser_bool ol el l
  | TBuff n => deser_bytes 2 (fun _ => []) ol el n l
  | TAscii n => deser_bytes 13 (ascii_check ol) ol el n l
  | TUtf8 n => deser_utf8 ol el rl n l
  | TNo => ([], l)
  | TOpt t' =>
      let none := [Const (VI32 0); Const (VI32 0)] ++ placeholders t' in
      let '(tp, l) := add_local T32 l in
      let '(ci, l) := deserialize_from_memory t' ol el rl l in
      let '(is, cs, l) := save_to_locals t' l in
      ([Block 0 (2 + length (clar2wasm_ty t'))
         [LGet ol; LGet el; R32 GeU; If 0 0 (none ++ [Br 1]) [];
          LGet ol; Load L32_8u 0; LTee tp; Const (VI32 9); R32 Eq;
          If 0 0 ([Const (VI32 1); Const (VI32 0)] ++ placeholders t' ++ bump ol 1 ++ [Br 1]) [];
          LGet tp; Const (VI32 10); R32 Eq;
          If 0 (2 + length (clar2wasm_ty t'))
            (bump ol 1 ++ ci ++ cs ++ [Eqz32; If 0 0 (none ++ [Br 2]) [];
             Const (VI32 1); Const (VI32 1)] ++ push_locals is)
            none]], l)
  | TResp t' e =>
      let nr := (2 + length (clar2wasm_ty t') + length (clar2wasm_ty e))%nat in
      let none := [Const (VI32 0); Const (VI32 0)] ++ placeholders t' ++ placeholders e in
      let '(tp, l) := add_local T32 l in
      let '(co, l) := deserialize_from_memory t' ol el rl l in
      let '(os, cso, l) := save_to_locals t' l in
      let '(ce, l) := deserialize_from_memory e ol el rl l in
      let '(es, cse, l) := save_to_locals e l in
      ([Block 0 nr
         [LGet ol; LGet el; R32 GeU; If 0 0 (none ++ [Br 1]) [];
          LGet ol; Load L32_8u 0; LTee tp; Const (VI32 7); R32 Eq;
          If 0 nr
            (bump ol 1 ++ co ++ cso ++ [Eqz32; If 0 0 (none ++ [Br 2]) [];
             Const (VI32 1); Const (VI32 1)] ++ push_locals os ++ placeholders e)
            ([LGet tp; Const (VI32 8); R32 Ne; If 0 0 (none ++ [Br 2]) []] ++
             bump ol 1 ++ ce ++ cse ++ [Eqz32; If 0 0 (none ++ [Br 2]) [];
             Const (VI32 1); Const (VI32 0)] ++ placeholders t' ++ push_locals es)]], l)
  | TList n t' =>
      let '(len, l) := add_local T32 l in
      let '(res, l) := add_local T32 l in
      let '(eo, l) := add_local T32 l in
      let '(ix, l) := add_local T32 l in
      let '(ci, l) := deserialize_from_memory t' ol el rl l in
      let '(is, cs, l) := save_to_locals t' l in
      let '(cw, l) := write_to_memory t' eo 0 l in
      let size := get_type_size t' in
      ([Block 0 3
         ([LGet ol; Const (VI32 5); B32 Add; LGet el; R32 GtU; If 0 0 (none3 ++ [Br 1]) [];
           LGet ol; Load L32_8u 0; Const (VI32 11); R32 Ne; If 0 0 (none3 ++ [Br 1]) [];
           LGet ol; Const (VI32 1); B32 Add; Call "stdlib.load-i32-be"; LTee len; Const (VI32 n); R32 GtU;
           If 0 0 (none3 ++ [Br 1]) [];
           LGet rl; LTee res; LTee eo; LGet len; Const (VI32 size); B32 Mul; B32 Add; LSet rl] ++
          bump ol 5 ++
          [Const (VI32 0); LSet ix;
           Loop 0 3
             ([LGet ix; LGet len; R32 GeU;
               If 0 0 [Const (VI32 1); LGet res; LGet len; Const (VI32 size); B32 Mul; Br 2] []] ++
              ci ++ cs ++ [Eqz32; If 0 0 (none3 ++ [Br 2]) []] ++
              push_locals is ++ cw ++ bump eo size ++ bump ix 1 ++ [Br 0])])], l)
  | TTuple fs =>
      let ks := map fst fs in
      let n := length fs in
      let '(bits, l) := add_locals (repeat T32 ((n + 31) / 32)) l in
      let '(vss, l) := field_locals (map snd fs) l in
      let '(rem, l) := add_local T32 l in
      let '(nm, l) := add_local T32 l in
      let '(cases, l) :=
        (fix go (fs : list (string * ty)) (i : nat) (vss : list (list nat)) (l : lst) {struct fs} : list (list instr) * lst :=
           match fs with
           | [] => ([], l)
           | (_, t') :: fs =>
               let '(cd, l) := deserialize_from_memory t' ol el rl l in
               let '(cs, l) := go fs (S i) (tl vss) l in
               (tuple_case n i (nth (i / 32) bits O) rem cd (hd [] vss) :: cs, l)
           end) fs O vss l in
      ([Block 0 (1 + length (clar2wasm_ty (TTuple fs)))
         (flat_map (fun b => [Const (VI32 0); LSet b]) bits ++
          [Block 0 0
             ([LGet ol; Const (VI32 5); B32 Add; LGet el; R32 GtU; BrIf 0;
               LGet ol; Load L32_8u 0; Const (VI32 12); R32 Ne; BrIf 0;
               LGet ol; Const (VI32 1); B32 Add; Call "stdlib.load-i32-be"; LTee rem; Const (VI32 (Z.of_nat n)); R32 LtU; BrIf 0] ++
              bump ol 5 ++
              [Loop 0 0 (Block 0 0 (nest (tuple_switch ks ol el nm) cases) :: tuple_default ol el nm rem)])] ++
          [LGet rem; Eqz32] ++
          flat_map (fun b => [LGet b; Const (VI32 (m32 - 1)); R32 Eq; B32 And]) (removelast bits) ++
          [LGet (last bits O); Const (VI32 (last_bits n)); R32 Eq; B32 And;
           If 0 (1 + length (clar2wasm_ty (TTuple fs)))
             (Const (VI32 1) :: push_locals (concat vss))
             (Const (VI32 0) :: placeholders (TTuple fs))])], l)
  end.

(** consensus_buff.rs 103-183 [FromConsensusBuff::traverse], after the argument has been evaluated;
    the word's type is [(optional t)].  The length is also kept for the cost (off here). *)
Definition from_consensus_buff (t : ty) (l : lst) : list instr * lst :=
  let '(len, l) := add_local T32 l in
  let '(r, _, c, l) := create_call_stack_local (TOpt t) true true l in
  let '(o, l) := add_local T32 l in
  let '(e, l) := add_local T32 l in
  let '(cd, l) := deserialize_from_memory t o e r l in
  ([LTee len] ++ c ++ [LSet e; LTee o; LGet e; B32 Add; LSet e] ++ cd ++
   [LGet e; LGet o; R32 Eq;
    If (length (clar2wasm_ty (TOpt t))) (length (clar2wasm_ty (TOpt t))) []
      (drop_value (TOpt t) ++ placeholders (TOpt t))], l).
End Deser.
