(** * What [print] does (specification) *)
From Coq Require Import ZArith String List Bool.
Import ListNotations.
From Verif Require Import Clar Ast SpecLang.
Open Scope string_scope.
Open Scope list_scope.
Open Scope Z_scope.

(** What an observer of the chain sees of a value: a contract that implements a trait is
    seen as the principal it is. *)
Fixpoint seen (v : value) : value :=
  match v with
  | CCallable p _ => CPrin p
  | CSome v => CSome (seen v)
  | COk v => COk (seen v)
  | CErr v => CErr (seen v)
  | CList vs => CList (map seen vs)
  | CTuple fs => CTuple (map (fun f => (fst f, seen (snd f))) fs)
  | v => v
  end.

(** Programs that print: [print] with sequences, [let] and [if] around the expressions of
    Ast.v.  [text] is the type of the printed value as a text, at the address [at_] of the
    module's data. *)
Inductive stmt :=
| SExpr (e : expr)
| SPrint (text : list Z) (at_ : Z) (s : stmt)
| SSeq (a b : stmt)
| SLet (x : string) (a b : stmt)
| SIf (c a b : stmt).
Fixpoint stmt_ty (s : stmt) : ty :=
  match s with
  | SExpr e => ty_of e
  | SPrint _ _ s => stmt_ty s
  | SSeq _ b | SLet _ _ b => stmt_ty b
  | SIf _ a _ => stmt_ty a
  end.

Section Meaning.
Context {HS : Type} {CH : chain HS} (log : HS -> value -> HS).
(** the event is registered, and the result is what was printed *)
Definition do_print (v : value) : M HS value := fun h => Some (Done v (log h (seen v))).
Fixpoint eval_stmt (strict : bool) (funs : string -> list value -> M HS value) (s : stmt) (r : venv) : M HS value :=
  match s with
  | SExpr e => eval strict funs e r
  | SPrint _ _ s => bind (eval_stmt strict funs s r) do_print
  | SSeq a b => bind (eval_stmt strict funs a r) (fun _ => eval_stmt strict funs b r)
  | SLet x a b => bind (eval_stmt strict funs a r) (fun v => eval_stmt strict funs b ((x, v) :: r))
  | SIf c a b => bind (eval_stmt strict funs c r) (fun v => match v with CBool b' => if b' then eval_stmt strict funs a r else eval_stmt strict funs b r | _ => bad end)
  end.
End Meaning.
