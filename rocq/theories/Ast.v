(** * Typed Clarity expressions

    The input of the generator: a [SymbolicExpression] tree together with the
    [TypeMap] of the type checker (clarity crate).  Each node carries the type
    the generator reads from the map when it emits the node, that is after the
    [set_expr_type] "workarounds" of its ancestors (e.g. conditionals.rs 289-290).
    Names of special forms are those of /repo/clar2wasm/src/words/mod.rs.

    Simplifications:
    - a statement list of several expressions is nested [ESeq] nodes and a [let]
      of several bindings nested [ELet] nodes (the code emitted is the same:
      wasm_generator.rs 1361-1387 and bindings.rs 37-81 emit them one by one);
    - a literal kept in memory carries the address the literal memory gave it
      (wasm_generator.rs 809-980, modelled in Gen.v);
    - the operands of [unwrap!], [try!], [match], ... are split by type into an
      optional and a response form, as the emission code does by matching. *)
From Coq Require Import ZArith String List Bool Lia.
Import ListNotations.
From Verif Require Import Wasm Clar.
Open Scope Z_scope.

(** arithmetic words with any number of operands: mod.rs SIMPLE_VARIADIC_WORDS *)
Inductive arith := OAdd | OSub | OMul | ODiv.

(** words that evaluate their operands in order and then apply an operation:
    mod.rs SIMPLE_WORDS (those modelled) *)
Inductive word :=
| WMod | WPow | WLog2 | WSqrti
| WLt | WLe | WGt | WGe
| WNot
| WBitAnd | WBitOr | WBitXor | WXor | WBitNot | WShl | WShr
| WToInt | WToUint.

(** kind of the function called, as the analysis has it (wasm_generator.rs 1749-1768) *)
Inductive kind := KPrivate | KPublic | KReadOnly.
(** what the host opens and closes around a part of the program *)
Inductive scope := SPublic | SReadOnly | SContract.
Definition kind_scope (k : kind) : option scope := match k with KPrivate => None | KPublic => Some SPublic | KReadOnly => Some SReadOnly end.

(** what [fold] and [map] ([filter]: Filter.v) apply: a function of kind [k], a word, an
    arithmetic word, or [and]/[or] in their non-short-circuiting form
    (conditionals.rs 570-600, 739-765) *)
Inductive fn := FUser (k : kind) (f : string) | FWord (w : word) | FArith (o : arith) | FBool (any : bool).

(** words served by the host: the name of the variable, map or token, the address
    of that name in the literal memory, the declared types *)
Inductive prim :=
| PVarGet (n : list Z) (o : Z) (t : ty)
| PVarSet (n : list Z) (o : Z) (t : ty)
| PMapGet (n : list Z) (o : Z) (kt vt : ty)
| PMapSet (n : list Z) (o : Z) (kt vt : ty)
| PMapInsert (n : list Z) (o : Z) (kt vt : ty)
| PMapDelete (n : list Z) (o : Z) (kt vt : ty)
| PFtSupply (n : list Z) (o : Z)
| PFtBalance (n : list Z) (o : Z)
| PFtMint (n : list Z) (o : Z)
| PFtBurn (n : list Z) (o : Z)
| PFtTransfer (n : list Z) (o : Z)
| PTxSender | PContractCaller.
Definition prim_name (p : prim) : list Z :=
  match p with
  | PVarGet n _ _ | PVarSet n _ _ | PMapGet n _ _ _ | PMapSet n _ _ _ | PMapInsert n _ _ _ | PMapDelete n _ _ _
  | PFtSupply n _ | PFtBalance n _ | PFtMint n _ | PFtBurn n _ | PFtTransfer n _ => n
  | PTxSender | PContractCaller => []
  end.
Definition prim_addr (p : prim) : Z :=
  match p with
  | PVarGet _ o _ | PVarSet _ o _ | PMapGet _ o _ _ | PMapSet _ o _ _ | PMapInsert _ o _ _ | PMapDelete _ o _ _
  | PFtSupply _ o | PFtBalance _ o | PFtMint _ o | PFtBurn _ o | PFtTransfer _ o => o
  | PTxSender | PContractCaller => 0
  end.
(** does the word have a name in the literal memory? *)
Definition prim_named (p : prim) : bool := match p with PTxSender | PContractCaller => false | _ => true end.
(** types of the operands and of the value *)
Definition prim_args (p : prim) : list ty :=
  match p with
  | PVarGet _ _ _ | PFtSupply _ _ | PTxSender | PContractCaller => []
  | PVarSet _ _ t => [t]
  | PMapGet _ _ kt _ | PMapDelete _ _ kt _ => [kt]
  | PMapSet _ _ kt vt | PMapInsert _ _ kt vt => [kt; vt]
  | PFtBalance _ _ => [TPrin]
  | PFtMint _ _ | PFtBurn _ _ => [TUInt; TPrin]
  | PFtTransfer _ _ => [TUInt; TPrin; TPrin]
  end.
Definition prim_ret (p : prim) : ty :=
  match p with
  | PVarGet _ _ t => t
  | PMapGet _ _ _ vt => TOpt vt
  | PVarSet _ _ _ | PMapSet _ _ _ _ | PMapInsert _ _ _ _ | PMapDelete _ _ _ _ => TBool
  | PFtSupply _ _ | PFtBalance _ _ => TUInt
  | PFtMint _ _ | PFtBurn _ _ | PFtTransfer _ _ => TResp TBool TUInt
  | PTxSender | PContractCaller => TPrin
  end.


Inductive expr :=
| ENum (t : ty) (z : Z)                      (* an int or uint literal *)
| EBool (b : bool)
| EBytes (t : ty) (v : value) (off : Z)      (* a buffer, string or principal literal *)
| ENone (t : ty)                             (* [none], of the optional type [t] *)
| EVar (t : ty) (x : string)
| ESeq (a b : expr)
| ELet (x : string) (a b : expr)
| EIf (c a b : expr)
| EAnd (es : list expr)
| EOr (es : list expr)
| EEq (a : expr) (es : list expr)
| ESome (a : expr)
| EOk (a : expr) (err : ty)
| EErr (ok : ty) (a : expr)
| EMatchOpt (c : expr) (x : string) (a b : expr)
| EMatchResp (c : expr) (x : string) (a : expr) (y : string) (b : expr)
| EUnwrap (a thrown : expr)
| EUnwrapErr (a thrown : expr)
| EAsserts (c thrown : expr)
| ETry (a : expr)
| EUnwrapPanic (a : expr)
| EUnwrapErrPanic (a : expr)
| EIsSome (a : expr) | EIsNone (a : expr) | EIsOk (a : expr) | EIsErr (a : expr)
| EDefault (a b : expr)
| ETuple (ts : list (string * ty)) (fs : list (string * expr))
| EGet (k : string) (a : expr)
| EMerge (ts : list (string * ty)) (a b : expr)
| EList (n : Z) (t : ty) (es : list expr)
| EConcat (t : ty) (a b : expr)
| EAppend (n : Z) (t : ty) (a b : expr)
| EMaxLen (a : expr) (n : Z) (t : ty)        (* (as-max-len? a un), of type (optional t) *)
| ELen (a : expr)
| EElementAt (a i : expr)
| ESlice (a l r : expr)
| EReplaceAt (a i b : expr)
| EIndexOf (a b : expr)
| EFold (g : fn) (t : ty) (a b : expr)       (* (fold g a b), of type [t] *)
| EMap (g : fn) (n : Z) (t : ty) (es : list expr) (* (map g es), of type (list n t) *)
| EArith (o : arith) (t : ty) (a : expr) (es : list expr)
| EWord (w : word) (t : ty) (es : list expr)
| ECall (k : kind) (f : string) (t : ty) (es : list expr)
| EAsContract (a : expr)
| EPrim (p : prim) (es : list expr).          (* a word served by the host *)

(** a function definition (wasm_generator.rs 533-600 reads the same parts) *)
Record fundef := mkdef { fd_name : string; fd_params : list (string * ty); fd_ret : ty; fd_body : expr }.

(** element type of a sequence, as the value of [element-at?] (optional) shows it *)
Definition elem_ty (t : ty) : ty :=
  match t with TBuff _ => TBuff 1 | TAscii _ => TAscii 1 | TUtf8 _ => TUtf8 1 | TList _ t => t | _ => TNo end.

Fixpoint field_ty (k : string) (fs : list (string * ty)) : ty :=
  match fs with [] => TNo | (k', t) :: fs => if String.eqb k' k then t else field_ty k fs end.

(** the type of an expression *)
Fixpoint ty_of (e : expr) : ty :=
  match e with
  | ENum t _ | EBytes t _ _ | ENone t | EVar t _ => t
  | EBool _ => TBool
  | ESeq _ b => ty_of b
  | ELet _ _ b => ty_of b
  | EIf _ a _ => ty_of a
  | EAnd _ | EOr _ | EEq _ _ => TBool
  | ESome a => TOpt (ty_of a)
  | EOk a err => TResp (ty_of a) err
  | EErr ok a => TResp ok (ty_of a)
  | EMatchOpt _ _ a _ => ty_of a
  | EMatchResp _ _ a _ _ => ty_of a
  | EUnwrap a _ | ETry a | EUnwrapPanic a => match ty_of a with TOpt t => t | TResp t _ => t | _ => TNo end
  | EUnwrapErr a _ | EUnwrapErrPanic a => match ty_of a with TResp _ t => t | _ => TNo end
  | EAsserts _ _ => TBool
  | EIsSome _ | EIsNone _ | EIsOk _ | EIsErr _ => TBool
  | EDefault a _ => ty_of a
  | ETuple ts _ => TTuple ts
  | EGet k a =>
      match ty_of a with
      | TTuple ts => field_ty k ts
      | TOpt (TTuple ts) => TOpt (field_ty k ts)
      | _ => TNo
      end
  | EMerge ts _ _ => TTuple ts
  | EList n t _ => TList n t
  | EConcat t _ _ => t
  | EAppend n t _ _ => TList n t
  | EMaxLen _ _ t => TOpt t
  | ELen _ => TUInt
  | EElementAt a _ => TOpt (elem_ty (ty_of a))
  | ESlice a _ _ | EReplaceAt a _ _ => TOpt (ty_of a)
  | EIndexOf _ _ => TOpt TUInt
  | EFold _ t _ _ => t
  | EMap _ n t _ => TList n t
  | EArith _ t _ _ => t
  | EWord _ t _ => t
  | ECall _ _ t _ => t
  | EAsContract a => ty_of a
  | EPrim p _ => prim_ret p
  end.

Section ExprInd.
  Variable P : expr -> Prop.
  Hypothesis H_num : forall t z, P (ENum t z).
  Hypothesis H_bool : forall b, P (EBool b).
  Hypothesis H_bytes : forall t v o, P (EBytes t v o).
  Hypothesis H_none : forall t, P (ENone t).
  Hypothesis H_var : forall t x, P (EVar t x).
  Hypothesis H_seq : forall a b, P a -> P b -> P (ESeq a b).
  Hypothesis H_let : forall x a b, P a -> P b -> P (ELet x a b).
  Hypothesis H_if : forall c a b, P c -> P a -> P b -> P (EIf c a b).
  Hypothesis H_and : forall es, Forall P es -> P (EAnd es).
  Hypothesis H_or : forall es, Forall P es -> P (EOr es).
  Hypothesis H_eq : forall a es, P a -> Forall P es -> P (EEq a es).
  Hypothesis H_some : forall a, P a -> P (ESome a).
  Hypothesis H_ok : forall a t, P a -> P (EOk a t).
  Hypothesis H_err : forall t a, P a -> P (EErr t a).
  Hypothesis H_mopt : forall c x a b, P c -> P a -> P b -> P (EMatchOpt c x a b).
  Hypothesis H_mresp : forall c x a y b, P c -> P a -> P b -> P (EMatchResp c x a y b).
  Hypothesis H_unwrap : forall a b, P a -> P b -> P (EUnwrap a b).
  Hypothesis H_unwraperr : forall a b, P a -> P b -> P (EUnwrapErr a b).
  Hypothesis H_asserts : forall a b, P a -> P b -> P (EAsserts a b).
  Hypothesis H_try : forall a, P a -> P (ETry a).
  Hypothesis H_upanic : forall a, P a -> P (EUnwrapPanic a).
  Hypothesis H_uepanic : forall a, P a -> P (EUnwrapErrPanic a).
  Hypothesis H_issome : forall a, P a -> P (EIsSome a).
  Hypothesis H_isnone : forall a, P a -> P (EIsNone a).
  Hypothesis H_isok : forall a, P a -> P (EIsOk a).
  Hypothesis H_iserr : forall a, P a -> P (EIsErr a).
  Hypothesis H_default : forall a b, P a -> P b -> P (EDefault a b).
  Hypothesis H_tuple : forall ts fs, Forall (fun f => P (snd f)) fs -> P (ETuple ts fs).
  Hypothesis H_get : forall k a, P a -> P (EGet k a).
  Hypothesis H_merge : forall ts a b, P a -> P b -> P (EMerge ts a b).
  Hypothesis H_list : forall n t es, Forall P es -> P (EList n t es).
  Hypothesis H_concat : forall t a b, P a -> P b -> P (EConcat t a b).
  Hypothesis H_append : forall n t a b, P a -> P b -> P (EAppend n t a b).
  Hypothesis H_maxlen : forall a n t, P a -> P (EMaxLen a n t).
  Hypothesis H_len : forall a, P a -> P (ELen a).
  Hypothesis H_elem : forall a b, P a -> P b -> P (EElementAt a b).
  Hypothesis H_slice : forall a b c, P a -> P b -> P c -> P (ESlice a b c).
  Hypothesis H_replace : forall a b c, P a -> P b -> P c -> P (EReplaceAt a b c).
  Hypothesis H_index : forall a b, P a -> P b -> P (EIndexOf a b).
  Hypothesis H_fold : forall g t a b, P a -> P b -> P (EFold g t a b).
  Hypothesis H_map : forall g n t es, Forall P es -> P (EMap g n t es).
  Hypothesis H_arith : forall o t a es, P a -> Forall P es -> P (EArith o t a es).
  Hypothesis H_word : forall w t es, Forall P es -> P (EWord w t es).
  Hypothesis H_call : forall k f t es, Forall P es -> P (ECall k f t es).
  Hypothesis H_ascontract : forall a, P a -> P (EAsContract a).
  Hypothesis H_prim : forall p es, Forall P es -> P (EPrim p es).

  Fixpoint expr_ind' (e : expr) : P e :=
    let all := fix all (es : list expr) : Forall P es :=
      match es with [] => Forall_nil _ | e :: es => Forall_cons e (expr_ind' e) (all es) end in
    match e with
    | ENum t z => H_num t z
    | EBool b => H_bool b
    | EBytes t v o => H_bytes t v o
    | ENone t => H_none t
    | EVar t x => H_var t x
    | ESeq a b => H_seq a b (expr_ind' a) (expr_ind' b)
    | ELet x a b => H_let x a b (expr_ind' a) (expr_ind' b)
    | EIf c a b => H_if c a b (expr_ind' c) (expr_ind' a) (expr_ind' b)
    | EAnd es => H_and es (all es)
    | EOr es => H_or es (all es)
    | EEq a es => H_eq a es (expr_ind' a) (all es)
    | ESome a => H_some a (expr_ind' a)
    | EOk a t => H_ok a t (expr_ind' a)
    | EErr t a => H_err t a (expr_ind' a)
    | EMatchOpt c x a b => H_mopt c x a b (expr_ind' c) (expr_ind' a) (expr_ind' b)
    | EMatchResp c x a y b => H_mresp c x a y b (expr_ind' c) (expr_ind' a) (expr_ind' b)
    | EUnwrap a b => H_unwrap a b (expr_ind' a) (expr_ind' b)
    | EUnwrapErr a b => H_unwraperr a b (expr_ind' a) (expr_ind' b)
    | EAsserts a b => H_asserts a b (expr_ind' a) (expr_ind' b)
    | ETry a => H_try a (expr_ind' a)
    | EUnwrapPanic a => H_upanic a (expr_ind' a)
    | EUnwrapErrPanic a => H_uepanic a (expr_ind' a)
    | EIsSome a => H_issome a (expr_ind' a)
    | EIsNone a => H_isnone a (expr_ind' a)
    | EIsOk a => H_isok a (expr_ind' a)
    | EIsErr a => H_iserr a (expr_ind' a)
    | EDefault a b => H_default a b (expr_ind' a) (expr_ind' b)
    | ETuple ts fs => H_tuple ts fs ((fix go fs : Forall (fun f => P (snd f)) fs :=
        match fs with [] => Forall_nil _ | (k, e) :: fs => Forall_cons (k, e) (expr_ind' e) (go fs) end) fs)
    | EGet k a => H_get k a (expr_ind' a)
    | EMerge ts a b => H_merge ts a b (expr_ind' a) (expr_ind' b)
    | EList n t es => H_list n t es (all es)
    | EConcat t a b => H_concat t a b (expr_ind' a) (expr_ind' b)
    | EAppend n t a b => H_append n t a b (expr_ind' a) (expr_ind' b)
    | EMaxLen a n t => H_maxlen a n t (expr_ind' a)
    | ELen a => H_len a (expr_ind' a)
    | EElementAt a b => H_elem a b (expr_ind' a) (expr_ind' b)
    | ESlice a b c => H_slice a b c (expr_ind' a) (expr_ind' b) (expr_ind' c)
    | EReplaceAt a b c => H_replace a b c (expr_ind' a) (expr_ind' b) (expr_ind' c)
    | EIndexOf a b => H_index a b (expr_ind' a) (expr_ind' b)
    | EFold g t a b => H_fold g t a b (expr_ind' a) (expr_ind' b)
    | EMap g n t es => H_map g n t es (all es)
    | EArith o t a es => H_arith o t a es (expr_ind' a) (all es)
    | EWord w t es => H_word w t es (all es)
    | ECall k f t es => H_call k f t es (all es)
    | EAsContract a => H_ascontract a (expr_ind' a)
    | EPrim p es => H_prim p es (all es)
    end.
End ExprInd.
