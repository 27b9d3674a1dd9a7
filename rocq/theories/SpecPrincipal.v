(** * What the principal words mean (specification) *)
From Coq Require Import ZArith String List Bool.
Import ListNotations.
From Verif Require Import Spec SpecBytes Clar Ast SpecLang SpecChain.
Open Scope string_scope.
Open Scope list_scope.
Open Scope Z_scope.

(** address versions of the network: mainnet 20 and 22, testnet 21 and 26 *)
Definition on_network (mainnet : bool) (v : Z) : bool :=
  if mainnet then (v =? 20) || (v =? 22) else (v =? 21) || (v =? 26).
Definition version_of (p : prin) : Z := match p with PStd v _ | PCon v _ _ => v end.
Definition hash_of (p : prin) : list Z := match p with PStd _ h | PCon _ h _ => h end.
Definition name_of (p : prin) : option (list Z) := match p with PStd _ _ => None | PCon _ _ n => Some n end.
Definition principal (v : Z) (h : list Z) (n : option (list Z)) : prin := match n with None => PStd v h | Some n => PCon v h n end.

(** [is-standard] *)
Definition is_standard (mainnet : bool) (p : prin) : bool := on_network mainnet (version_of p).
(** [principal-destruct?]: [ok] or [err] of the same tuple *)
Definition parts_ty : ty := TTuple [("hash-bytes", TBuff 20); ("name", TOpt (TAscii 40)); ("version", TBuff 1)].
Definition parts (p : prin) : value :=
  CTuple [("hash-bytes", CBuff (hash_of p)); ("name", match name_of p with Some n => CSome (CAscii n) | None => CNone end); ("version", CBuff [version_of p])].
Definition destruct_principal (mainnet : bool) (p : prin) : value :=
  if is_standard mainnet p then COk (parts p) else CErr (parts p).
(** [principal-construct?] *)
Definition complaint_ty : ty := TTuple [("error_code", TUInt); ("value", TOpt TPrin)].
Definition complaint (code : Z) (p : option prin) : value :=
  CErr (CTuple [("error_code", CUInt code); ("value", match p with Some p => CSome (CPrin p) | None => CNone end)]).
Definition name_fine (n : option (list Z)) : bool := match n with Some n => if contract_name_dec n then true else false | None => true end.
Definition construct_principal (mainnet : bool) (v h : list Z) (n : option (list Z)) : value :=
  match v with
  | [b] =>
      if (b <? 32) && (length h =? 20)%nat then
        if name_fine n then
          if on_network mainnet b then COk (CPrin (principal b h n)) else complaint 0 (Some (principal b h n))
        else complaint 2 None
      else complaint 1 None
  | _ => complaint 1 None
  end.

(** Programs with these words: sequences of them with [let] and [if] around the expressions of
    Ast.v.  The contract name of [principal-construct?] is optional. *)
Inductive pexp :=
| GExpr (e : expr)
| GStandard (a : pexp)
| GDestruct (a : pexp)
| GConstruct (v h : pexp)
| GConstructC (v h n : pexp)
| GLet (x : string) (a b : pexp)
| GIf (c a b : pexp).
Fixpoint pexp_ty (s : pexp) : ty :=
  match s with
  | GExpr e => ty_of e
  | GStandard _ => TBool
  | GDestruct _ => TResp parts_ty parts_ty
  | GConstruct _ _ | GConstructC _ _ _ => TResp TPrin complaint_ty
  | GLet _ _ b => pexp_ty b
  | GIf _ a _ => pexp_ty a
  end.

Section Meaning.
Context {HS : Type} {CH : chain HS} (mainnet : bool).
Definition do_standard (v : value) : M HS value := match v with CPrin p => ret (CBool (is_standard mainnet p)) | _ => bad end.
(** the name of the result is a [(string-ascii 40)]: strictly, a longer one is not allowed *)
Definition short_name (p : prin) : bool := match name_of p with Some n => (length n <=? 40)%nat | None => true end.
Definition do_destruct (strict : bool) (v : value) : M HS value :=
  match v with CPrin p => if negb strict || short_name p then ret (destruct_principal mainnet p) else bad | _ => bad end.
Definition do_construct (v h : value) (n : option value) : M HS value :=
  match v, h, n with
  | CBuff v, CBuff h, Some (CAscii n) => ret (construct_principal mainnet v h (Some n))
  | CBuff v, CBuff h, None => ret (construct_principal mainnet v h None)
  | _, _, _ => bad
  end.
Fixpoint eval_pexp (strict : bool) (funs : string -> list value -> M HS value) (s : pexp) (r : venv) : M HS value :=
  match s with
  | GExpr e => eval strict funs e r
  | GStandard a => bind (eval_pexp strict funs a r) do_standard
  | GDestruct a => bind (eval_pexp strict funs a r) (do_destruct strict)
  | GConstruct v h => bind (eval_pexp strict funs v r) (fun v => bind (eval_pexp strict funs h r) (fun h => do_construct v h None))
  | GConstructC v h n => bind (eval_pexp strict funs v r) (fun v => bind (eval_pexp strict funs h r) (fun h => bind (eval_pexp strict funs n r) (fun n => do_construct v h (Some n))))
  | GLet x a b => bind (eval_pexp strict funs a r) (fun v => eval_pexp strict funs b ((x, v) :: r))
  | GIf c a b => bind (eval_pexp strict funs c r) (fun v => match v with CBool b' => if b' then eval_pexp strict funs a r else eval_pexp strict funs b r | _ => bad end)
  end.
End Meaning.
