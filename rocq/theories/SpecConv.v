(** * What the words between integers and strings mean (specification) *)
From Coq Require Import ZArith String List Bool.
Import ListNotations.
From Verif Require Import Spec SpecBytes Clar Ast SpecLang SpecChain.
Open Scope string_scope.
Open Scope list_scope.
Open Scope Z_scope.

(** the decimal digits of a natural number; one step per binary digit is enough *)
Fixpoint digits (fuel : nat) (n : Z) : list Z :=
  match fuel with
  | O => []
  | S f => if n <? 10 then [48 + n] else digits f (n / 10) ++ [48 + n mod 10]
  end.
Definition nat_text (n : Z) : list Z := digits (S (Z.to_nat (Z.log2 n))) n.
(** ... of an integer, with the sign if it is negative *)
Definition text (n : Z) : list Z := if n <? 0 then 45 :: nat_text (- n) else nat_text n.

Inductive conv := StringToInt | StringToUint | IntToAscii | IntToUtf8.
(** Programs with these words: sequences of them with [let] and [if] around the expressions of
    Ast.v *)
Inductive cexp :=
| XExpr (e : expr)
| XConv (w : conv) (a : cexp)
| XLet (x : string) (a b : cexp)
| XIf (c a b : cexp).
Definition conv_ty (w : conv) : ty :=
  match w with StringToInt => TOpt TInt | StringToUint => TOpt TUInt | IntToAscii => TAscii 40 | IntToUtf8 => TUtf8 40 end.
Fixpoint cexp_ty (s : cexp) : ty :=
  match s with
  | XExpr e => ty_of e
  | XConv w _ => conv_ty w
  | XLet _ _ b => cexp_ty b
  | XIf _ a _ => cexp_ty a
  end.

(** [some] of the number the string denotes, or [none] *)
Definition some_num (f : Z -> value) (o : option Z) : value := match o with Some n => CSome (f n) | None => CNone end.
(** Strings the compiled code reads right (see C12): unsigned, not one of the strings of 39
    digits for which it wraps around; at most 39 digits, or no number; not empty for
    [string-to-int?], which reads a character that is not there. *)
Definition digits_of (s : list Z) : list Z := match s with 45 :: r => r | _ => s end.
Definition wraps (s : list Z) : bool := forallb is_digit s && (2 ^ 128 + 4 <=? dec_value s) && (dec_value s mod 10 <=? 5).
Definition none (o : option Z) : bool := match o with None => true | _ => false end.
Definition fine_uint (s : list Z) : bool := if (length s <=? 39)%nat then negb (wraps s) else none (uint_of_string s).
Definition fine_int (s : list Z) : bool := negb (length s =? 0)%nat && ((length (digits_of s) <=? 39)%nat || none (int_of_string s)).

Section Meaning.
Context {HS : Type} {CH : chain HS}.
Definition do_conv (strict : bool) (w : conv) (v : value) : M HS value :=
  match w, v with
  | StringToInt, (CAscii s | CUtf8 s) => if negb strict || fine_int s then ret (some_num CInt (int_of_string s)) else bad
  | StringToUint, (CAscii s | CUtf8 s) => if negb strict || fine_uint s then ret (some_num CUInt (uint_of_string s)) else bad
  | IntToAscii, (CInt n | CUInt n) => ret (CAscii (text n))
  | IntToUtf8, (CInt n | CUInt n) => ret (CUtf8 (text n))
  | _, _ => bad
  end.
Fixpoint eval_cexp (strict : bool) (funs : string -> list value -> M HS value) (s : cexp) (r : venv) : M HS value :=
  match s with
  | XExpr e => eval strict funs e r
  | XConv w a => bind (eval_cexp strict funs a r) (do_conv strict w)
  | XLet x a b => bind (eval_cexp strict funs a r) (fun v => eval_cexp strict funs b ((x, v) :: r))
  | XIf c a b => bind (eval_cexp strict funs c r) (fun v => match v with CBool b' => if b' then eval_cexp strict funs a r else eval_cexp strict funs b r | _ => bad end)
  end.
End Meaning.
