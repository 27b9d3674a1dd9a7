(** * Emitted equality tests

    Models /repo/clar2wasm/src/words/equal.rs 310-818: the code that compares two
    values saved in locals.  Same conventions as Emit.v.  Operand slices
    ([&[LocalId]]) are lists of locals; the "wrong representation" errors (a
    slice of the wrong length) do not occur for locals obtained from
    [save_to_locals] and are left out. *)
From Coq Require Import ZArith String List Bool Lia.
Import ListNotations.
From Verif Require Import Wasm Clar Emit.
Open Scope Z_scope.

Definition lnth (i : nat) (a : list nat) : nat := nth i a 0%nat.

(** 374-401 [wasm_equal_int128] *)
Definition wasm_equal_int128 (a b : list nat) : list instr :=
  [LGet (lnth 0 a); LGet (lnth 0 b); R64 Eq;
   LGet (lnth 1 a); LGet (lnth 1 b); R64 Eq;
   B32 And].

(** 403-491 [wasm_equal_bytes]; the three borrowed locals are given back at the end *)
Definition wasm_equal_bytes (a b : list nat) (l : lst) : list instr * lst :=
  let '(len, l) := borrow T32 l in
  let '(ca, l) := borrow T32 l in
  let '(cb, l) := borrow T32 l in
  ([Block 0 0
      [LGet (lnth 1 a); LGet (lnth 1 b); B32 Xor; LTee len; BrIf 0;
       LGet (lnth 1 a); LTee len; Eqz32; BrIf 0;
       LGet (lnth 0 a); LSet ca;
       LGet (lnth 0 b); LSet cb;
       Loop 0 0
         [LGet ca; Load L32_8u 0;
          LGet cb; Load L32_8u 0;
          R32 Ne; BrIf 1;
          LGet ca; Const (VI32 1); B32 Add; LSet ca;
          LGet cb; Const (VI32 1); B32 Add; LSet cb;
          LGet len; Const (VI32 1); B32 Sub; LTee len; BrIf 0]];
    LGet len; Eqz32],
   release T32 len (release T32 ca (release T32 cb l))).

(** 310-372 [wasm_equal], 493-557 [wasm_equal_optional], 559-632
    [wasm_equal_response], 634-699 [wasm_equal_tuple], 701-818 [wasm_equal_list].
    [TTrait]: see [equal_implemented]. *)
Fixpoint wasm_equal (t : ty) (a b : list nat) (l : lst) {struct t} : list instr * lst :=
  match t with
  | TNo | TTrait _ => ([Unreachable], l)
  | TBool => ([LGet (lnth 0 a); LGet (lnth 0 b); R32 Eq], l)
  | TInt | TUInt => (wasm_equal_int128 a b, l)
  | TBuff _ | TAscii _ | TUtf8 _ | TPrin => wasm_equal_bytes a b l
  | TOpt t' =>
      let '(c, l) := wasm_equal t' (tl a) (tl b) l in
      ([LGet (lnth 0 a); LGet (lnth 0 b); R32 Eq;
        If 0 1 [LGet (lnth 0 a); If 0 1 c [Const (VI32 1)]] [Const (VI32 0)]], l)
  | TResp t' e =>
      let n := length (clar2wasm_ty t') in
      let '(c1, l) := wasm_equal t' (firstn n (tl a)) (firstn n (tl b)) l in
      let '(c2, l) := wasm_equal e (skipn n (tl a)) (skipn n (tl b)) l in
      ([LGet (lnth 0 a); LGet (lnth 0 b); R32 Eq;
        If 0 1 [LGet (lnth 0 a); If 0 1 c1 c2] [Const (VI32 0)]], l)
  | TTuple fs =>
      match fs with
      | [(_, t')] => wasm_equal t' a b l
      | _ =>
          let '(res, l) := borrow T32 l in
          let '(body, l) :=
            (fix go (fs : list (string * ty)) (a b : list nat) (l : lst) {struct fs} : list instr * lst :=
               match fs with
               | [] => ([], l)
               | (_, t') :: fs =>
                   let n := length (clar2wasm_ty t') in
                   let '(c, l) := wasm_equal t' (firstn n a) (firstn n b) l in
                   let '(cs, l) := go fs (skipn n a) (skipn n b) l in
                   (c ++ [LTee res; Eqz32; BrIf 0] ++ cs, l)
               end) fs a b l in
          ([Block 0 0 body; LGet res], release T32 res l)
      end
  | TList _ t' =>
      let oa := lnth 0 a in let la := lnth 1 a in
      let ob := lnth 0 b in let lb := lnth 1 b in
      let size := get_type_size t' in
      let '(fl, s1, l) := save_to_locals t' l in
      let '(nl, s2, l) := save_to_locals t' l in
      let '(c, l) := wasm_equal t' fl nl l in
      let loop_ :=
        read_from_memory t' oa 0 ++ s1 ++
        read_from_memory t' ob 0 ++ s2 ++
        c ++
        [If 0 0
           [LGet oa; Const (VI32 size); B32 Add; LSet oa;
            LGet ob; Const (VI32 size); B32 Add; LSet ob;
            LGet lb; Const (VI32 size); B32 Sub; LTee lb; BrIf 1]
           []] in
      ([LGet la; LGet lb; R32 Eq;
        If 0 1
          [LGet lb; Eqz32;
           If 0 1 [Const (VI32 1)]
                  [LGet oa; Loop 0 0 loop_; LSet oa; LGet lb; Eqz32]]
          [Const (VI32 0)]], l)
  end.

(** equal.rs 370: every other type (trait references) is [NotImplemented]: the
    contract is rejected at compile time *)
Fixpoint equal_implemented (t : ty) : bool :=
  match t with
  | TTrait _ => false
  | TOpt t => equal_implemented t
  | TResp t e => equal_implemented t && equal_implemented e
  | TList _ t => equal_implemented t
  | TTuple fs => forallb (fun f => equal_implemented (snd f)) fs
  | _ => true
  end.
