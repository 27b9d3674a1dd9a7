(** * Specification: what it means for a value to be represented

    Independent of the codec functions.  A Clarity value of a type is a sequence
    of Wasm words.  Integers are two 64-bit words (low, high), booleans one
    32-bit word 0 or 1, optionals and responses a 32-bit tag followed by the
    words of every branch (the words of the branches not taken are arbitrary),
    tuples the concatenation of their fields; buffers, strings, principals and
    lists are an address and a byte length, the bytes (or the consecutive
    representations of the elements) being in memory there.

    [rep m P t v ws]: in memory [m], the words [ws] represent [v] at type [t],
    all memory they refer to lying at addresses satisfying [P]. *)
From Coq Require Import ZArith String List Bool Lia.
Import ListNotations.
From Verif Require Import Wasm StdEnv WasmTac Spec Mem Bytes SpecBytes SpecUtf8 Clar.
Open Scope Z_scope.

Definition wtyped (t : vt) (w : val) : Prop :=
  match t, w with
  | T32, VI32 z => 0 <= z < m32
  | T64, VI64 z => 0 <= z < m64
  | T128, VV128 z => 0 <= z < m128
  | _, _ => False
  end.

Definition word_bytes (w : val) : list Z :=
  match w with VI32 z => le_bytes 4 z | VI64 z => le_bytes 8 z | VV128 z => le_bytes 16 z end.
Definition words_bytes (ws : list val) : list Z := flat_map word_bytes ws.
(** the words [ws] are stored consecutively at [a] *)
Definition words_at (m : mem) (a : Z) (ws : list val) : Prop := holds m a (words_bytes ws).
Definition inside (P : Z -> Prop) (a n : Z) : Prop := forall x, a <= x < a + n -> P x.

(** bytes of a principal: version, 20-byte hash, length of the contract name, contract name *)
Definition prin_bytes (p : prin) : list Z :=
  match p with
  | PStd v h => v :: h ++ [0]
  | PCon v h n => v :: h ++ Z.of_nat (length n) :: n
  end.

Section Rep.
Variables (m : mem) (P : Z -> Prop).

Definition rep_bytes (bs : list Z) (ws : list val) : Prop :=
  exists o, ws = [VI32 o; VI32 (Z.of_nat (length bs))] /\ 0 <= o < m32 /\ Z.of_nat (length bs) < m32 /\
    holds m o bs /\ inside P o (Z.of_nat (length bs)).

(** size in memory of a representation, 4 or 8 bytes per word *)
Definition words_size (ts : list vt) : Z :=
  fold_right (fun t n => (match t with T32 => 4 | T64 => 8 | T128 => 16 end) + n) 0 ts.

Fixpoint rep (t : ty) (v : value) (ws : list val) {struct t} : Prop :=
  match t, v with
  | TInt, CInt z => ws = [VI64 (z mod 2 ^ 64); VI64 (z / 2 ^ 64 mod 2 ^ 64)]
  | TUInt, CUInt z => ws = [VI64 (z mod 2 ^ 64); VI64 (z / 2 ^ 64 mod 2 ^ 64)]
  | TBool, CBool b => ws = [VI32 (if b then 1 else 0)]
  | TPrin, CPrin p => rep_bytes (prin_bytes p) ws
  | TTrait i, CCallable p j => i = j /\ rep_bytes (prin_bytes p) ws
  | TBuff _, CBuff bs => rep_bytes bs ws
  | TAscii _, CAscii bs => rep_bytes bs ws
  | TUtf8 _, CUtf8 cs => rep_bytes (flat_map (be_bytes 4) cs) ws
  | TOpt t', CNone => exists ws', ws = VI32 0 :: ws' /\ Forall2 wtyped (clar2wasm_ty t') ws'
  | TOpt t', CSome v' => exists ws', ws = VI32 1 :: ws' /\ rep t' v' ws'
  | TResp t' e, COk v' => exists ws1 ws2, ws = VI32 1 :: ws1 ++ ws2 /\ rep t' v' ws1 /\ Forall2 wtyped (clar2wasm_ty e) ws2
  | TResp t' e, CErr v' => exists ws1 ws2, ws = VI32 0 :: ws1 ++ ws2 /\ Forall2 wtyped (clar2wasm_ty t') ws1 /\ rep e v' ws2
  | TTuple fs, CTuple vs =>
      (fix go (fs : list (string * ty)) (vs : list (string * value)) (ws : list val) {struct fs} : Prop :=
         match fs, vs with
         | [], [] => ws = []
         | (k, t') :: fs, (k', v') :: vs => exists ws1 ws2, k = k' /\ ws = ws1 ++ ws2 /\ rep t' v' ws1 /\ go fs vs ws2
         | _, _ => False
         end) fs vs ws
  | TList _ t', CList vs =>
      exists o, ws = [VI32 o; VI32 (Z.of_nat (length vs) * words_size (clar2wasm_ty t'))] /\
        0 <= o < m32 /\ Z.of_nat (length vs) * words_size (clar2wasm_ty t') < m32 /\
        o + Z.of_nat (length vs) * words_size (clar2wasm_ty t') <= msize m <= m32 /\
        inside P o (Z.of_nat (length vs) * words_size (clar2wasm_ty t')) /\
        (fix go (vs : list value) (a : Z) {struct vs} : Prop :=
           match vs with
           | [] => True
           | v' :: vs => (exists ws', words_at m a ws' /\ rep t' v' ws') /\ go vs (a + words_size (clar2wasm_ty t'))
           end) vs o
  | _, _ => False
  end.
End Rep.
