(** * What the signature words mean (specification) *)
From Coq Require Import ZArith String List Bool.
Import ListNotations.
From Verif Require Import Spec Bytes SpecBytes Clar Ast SpecLang SpecChain.
Open Scope string_scope.
Open Scope list_scope.
Open Scope Z_scope.

(** The cryptography is a parameter: any functions that give keys of 33 bytes, standard
    principals and digests of 32 bytes.  [cr_address]: the principal of a public key on the network of the
    transaction, none when the bytes are not a key. *)
Inductive khash := Keccak256 | Sha512_256.
Record crypto := mkcrypto {
  cr_recover : list Z -> list Z -> option (list Z);
  cr_verify : list Z -> list Z -> list Z -> bool;
  cr_address : list Z -> option (Z * list Z);
  cr_hash : khash -> list Z -> list Z }.
Definition is_byte (b : Z) : Prop := 0 <= b < 256.
Definition crypto_ok (cr : crypto) : Prop :=
  (forall m s k, cr_recover cr m s = Some k -> length k = 33%nat /\ Forall is_byte k) /\
  (forall k v h, cr_address cr k = Some (v, h) -> prin_std_ok v h) /\
  (forall w l, length (cr_hash cr w l) = 32%nat /\ Forall is_byte (cr_hash cr w l)).

(** a recoverable signature: 65 bytes, the last of them the recovery id *)
Definition recoverable (s : list Z) : bool := (length s =? 65)%nat && (nth 64 s 0 <=? 3).
(** a signature to verify may lack the recovery id *)
Definition verifiable (s : list Z) : bool := (length s =? 64)%nat || recoverable s.
(** None: the transaction is aborted by a runtime type error *)
Definition recover (cr : crypto) (m s : list Z) : option value :=
  if (length m =? 32)%nat then
    Some (if recoverable s then match cr_recover cr m s with Some k => COk (CBuff k) | None => CErr (CUInt 1) end else CErr (CUInt 2))
  else None.
Definition verify (cr : crypto) (m s k : list Z) : option value :=
  if (length m =? 32)%nat then
    if verifiable s then if (length k =? 33)%nat then Some (CBool (cr_verify cr m s k)) else None
    else Some (CBool false)
  else None.
Definition principal_of (cr : crypto) (k : list Z) : option value :=
  if (length k =? 33)%nat then Some (match cr_address cr k with Some (v, h) => COk (CPrin (PStd v h)) | None => CErr (CUInt 1) end)
  else None.

(** [keccak256], [sha512/256]: the digest of a buffer, or of the 16 bytes of an integer in two's
    complement, the least significant first *)
Definition hashed (v : value) : option (list Z) :=
  match v with CBuff b => Some b | CInt n | CUInt n => Some (le_bytes 16 (n mod 2 ^ 128)) | _ => None end.

(** Programs with these words: sequences of them with [let] and [if] around the expressions of
    Ast.v. *)
Inductive kexp :=
| KExpr (e : expr)
| KRecover (m s : kexp)
| KVerify (m s k : kexp)
| KPrincipalOf (k : kexp)
| KHash (w : khash) (a : kexp)
| KLet (x : string) (a b : kexp)
| KIf (c a b : kexp).
Definition recover_ty : ty := TResp (TBuff 33) TUInt.
Fixpoint kexp_ty (s : kexp) : ty :=
  match s with
  | KExpr e => ty_of e
  | KRecover _ _ => recover_ty
  | KVerify _ _ _ => TBool
  | KPrincipalOf _ => TResp TPrin TUInt
  | KHash _ _ => TBuff 32
  | KLet _ _ b => kexp_ty b
  | KIf _ a _ => kexp_ty a
  end.

Section Meaning.
Context {HS : Type} {CH : chain HS} (cr : crypto).
Definition or_abort (o : option value) : M HS value := fun h => Some (match o with Some v => Done v h | None => Abort err_host end).
Definition do_recover (m s : value) : M HS value := match m, s with CBuff m, CBuff s => or_abort (recover cr m s) | _, _ => bad end.
Definition do_verify (m s k : value) : M HS value := match m, s, k with CBuff m, CBuff s, CBuff k => or_abort (verify cr m s k) | _, _, _ => bad end.
Definition do_principal_of (k : value) : M HS value := match k with CBuff k => or_abort (principal_of cr k) | _ => bad end.
Definition do_hash (w : khash) (v : value) : M HS value := match hashed v with Some l => ret (CBuff (cr_hash cr w l)) | None => bad end.
Fixpoint eval_kexp (strict : bool) (funs : string -> list value -> M HS value) (s : kexp) (r : venv) : M HS value :=
  match s with
  | KExpr e => eval strict funs e r
  | KRecover m s => bind (eval_kexp strict funs m r) (fun m => bind (eval_kexp strict funs s r) (fun s => do_recover m s))
  | KVerify m s k => bind (eval_kexp strict funs m r) (fun m => bind (eval_kexp strict funs s r) (fun s => bind (eval_kexp strict funs k r) (fun k => do_verify m s k)))
  | KPrincipalOf k => bind (eval_kexp strict funs k r) do_principal_of
  | KHash w a => bind (eval_kexp strict funs a r) (do_hash w)
  | KLet x a b => bind (eval_kexp strict funs a r) (fun v => eval_kexp strict funs b ((x, v) :: r))
  | KIf c a b => bind (eval_kexp strict funs c r) (fun v => match v with CBool b' => if b' then eval_kexp strict funs a r else eval_kexp strict funs b r | _ => bad end)
  end.
End Meaning.
