(** * Specification: what Clarity expressions mean

    An evaluator over Clarity values, written from the language reference and
    independent of the generator.  An evaluation yields a value ([Done]), leaves
    the enclosing function early with a value ([Early]: [try!], [unwrap!],
    [unwrap-err!], [asserts!]) or aborts the transaction with a runtime error
    code ([Abort], codes as in /repo/clar2wasm/src/error_mapping.rs 17-110).  The
    chain state [HS] is threaded through; it is only touched by the words served by
    the host (class [chain]) and by calls.

    [eval false] is the reference semantics.  [eval true] is the same evaluator
    made partial: it yields nothing ([None]) exactly at the inputs marked
    [unless], where the compiled code is known to differ from the reference (each
    stated as a refutation theorem) or which the type checker excludes.
    Whenever [eval true] yields something, [eval false] yields the same
    (lemma [eval_strict] in LangFacts.v). *)
From Coq Require Import ZArith String List Bool Lia.
Import ListNotations.
From Verif Require Import Wasm StdEnv Spec SpecBytes SpecUtf8 Clar Ast.
Open Scope Z_scope.

(** ** Equality of values *)
Fixpoint list_eqb {A} (f : A -> A -> bool) (x y : list A) : bool :=
  match x, y with [], [] => true | a :: x, b :: y => f a b && list_eqb f x y | _, _ => false end.
Definition prin_eqb (p q : prin) : bool :=
  match p, q with
  | PStd v h, PStd v' h' => (v =? v') && list_eqb Z.eqb h h'
  | PCon v h n, PCon v' h' n' => (v =? v') && list_eqb Z.eqb h h' && list_eqb Z.eqb n n'
  | _, _ => false
  end.
Fixpoint veqb (a b : value) {struct a} : bool :=
  match a, b with
  | CInt x, CInt y | CUInt x, CUInt y => x =? y
  | CBool x, CBool y => Bool.eqb x y
  | CPrin p, CPrin q => prin_eqb p q
  | CCallable p i, CCallable q j => prin_eqb p q && list_eqb Z.eqb i j
  | CBuff x, CBuff y | CAscii x, CAscii y | CUtf8 x, CUtf8 y => list_eqb Z.eqb x y
  | CList x, CList y =>
      (fix go (x y : list value) {struct x} : bool :=
         match x, y with [], [] => true | a :: x, b :: y => veqb a b && go x y | _, _ => false end) x y
  | CNone, CNone => true
  | CSome x, CSome y | COk x, COk y | CErr x, CErr y => veqb x y
  | CTuple x, CTuple y =>
      (fix go (x y : list (string * value)) {struct x} : bool :=
         match x, y with
         | [], [] => true
         | (k, a) :: x, (k', b) :: y => String.eqb k k' && veqb a b && go x y
         | _, _ => false
         end) x y
  | _, _ => false
  end.

(** ** Sequences *)
Definition seq_len (v : value) : Z :=
  match v with
  | CBuff l | CAscii l | CUtf8 l => Z.of_nat (length l)
  | CList l => Z.of_nat (length l)
  | _ => 0
  end.
Definition seq_max (t : ty) : Z := match t with TBuff n | TAscii n | TUtf8 n | TList n _ => n | _ => 0 end.
Definition seq_concat (a b : value) : option value :=
  match a, b with
  | CBuff x, CBuff y => Some (CBuff (x ++ y))
  | CAscii x, CAscii y => Some (CAscii (x ++ y))
  | CUtf8 x, CUtf8 y => Some (CUtf8 (x ++ y))
  | CList x, CList y => Some (CList (x ++ y))
  | _, _ => None
  end.
Definition seq_nth (v : value) (i : Z) : option value :=
  if i <? seq_len v then
    match v with
    | CBuff l => option_map (fun b => CBuff [b]) (nth_error l (Z.to_nat i))
    | CAscii l => option_map (fun b => CAscii [b]) (nth_error l (Z.to_nat i))
    | CUtf8 l => option_map (fun b => CUtf8 [b]) (nth_error l (Z.to_nat i))
    | CList l => nth_error l (Z.to_nat i)
    | _ => None
    end
  else None.

(** the part of a list from position [i] up to position [j] *)
Definition sublist {A} (l : list A) (i j : Z) : list A := firstn (Z.to_nat (j - i)) (skipn (Z.to_nat i) l).
Definition seq_slice (v : value) (i j : Z) : value :=
  match v with
  | CBuff l => CBuff (sublist l i j)
  | CAscii l => CAscii (sublist l i j)
  | CUtf8 l => CUtf8 (sublist l i j)
  | CList l => CList (sublist l i j)
  | v => v
  end.
(** a list with the element at position [i] replaced *)
Definition put {A} (l : list A) (i : Z) (x : A) : list A := firstn (Z.to_nat i) l ++ x :: skipn (S (Z.to_nat i)) l.
Definition seq_put (v : value) (i : Z) (w : value) : option value :=
  match v, w with
  | CBuff l, CBuff [x] => Some (CBuff (put l i x))
  | CAscii l, CAscii [x] => Some (CAscii (put l i x))
  | CUtf8 l, CUtf8 [x] => Some (CUtf8 (put l i x))
  | CList l, x => Some (CList (put l i x))
  | _, _ => None
  end.
(** an empty buffer or string in the place of an element of [v] *)
Definition empty_for (v w : value) : bool :=
  match v, w with CBuff _, CBuff [] | CAscii _, CAscii [] | CUtf8 _, CUtf8 [] => true | _, _ => false end.
(** the elements of a sequence, in order; bytes and characters as sequences of length 1 *)
Definition seq_items (v : value) : list value :=
  match v with
  | CBuff l => map (fun b => CBuff [b]) l
  | CAscii l => map (fun b => CAscii [b]) l
  | CUtf8 l => map (fun b => CUtf8 [b]) l
  | CList l => l
  | _ => []
  end.
(** position of the first element equal to [w] *)
Fixpoint find_from (w : value) (xs : list value) (i : Z) : option Z :=
  match xs with [] => None | x :: xs => if veqb w x then Some i else find_from w xs (i + 1) end.
(** ** Integers *)
Definition fitsb (t : ty) (r : Z) : bool :=
  match t with TInt => (- 2 ^ 127 <=? r) && (r <? 2 ^ 127) | _ => (0 <=? r) && (r <? 2 ^ 128) end.
Definition num (t : ty) (r : Z) : value := match t with TInt => CInt r | _ => CUInt r end.
Definition num_of (t : ty) (v : value) : option Z :=
  match t, v with TInt, CInt z => Some z | TUInt, CUInt z => Some z | _, _ => None end.

(** result of an operation: a value or an error code *)
Definition exact (t : ty) (r code : Z) : value + Z := if fitsb t r then inl (num t r) else inr code.
Definition arith2 (o : arith) (t : ty) (a b : Z) : value + Z :=
  match o with
  | OAdd => exact t (a + b) err_overflow
  | OSub => exact t (a - b) err_underflow
  | OMul => exact t (a * b) err_overflow
  | ODiv => if b =? 0 then inr err_div_zero
            else exact t (match t with TInt => Z.quot a b | _ => a / b end) err_overflow
  end.
(** one operand: [(- x)] negates, the other words return it *)
Definition arith1 (o : arith) (t : ty) (a : Z) : value + Z :=
  match o with OSub => exact t (- a) err_underflow | _ => inl (num t a) end.

(** operands at which the standard library function is wrong (C01-C06) *)
Definition wrong2 (o : arith) (t : ty) (a b : Z) : bool :=
  match o, t with
  | OSub, TUInt => (a <? b) && (b / 2 ^ 64 =? 2 ^ 64 - 1) && (a mod 2 ^ 64 <? b mod 2 ^ 64)
  | OMul, TInt => (a * b =? - 2 ^ 127) && negb (a =? 1) && negb (b =? 1)
  | _, _ => false
  end.
(** [(- u0)] aborts *)
Definition wrong1 (o : arith) (t : ty) (a : Z) : bool :=
  match o, t with OSub, TUInt => a =? 0 | _, _ => false end.

Definition lexb := fix lexb (x y : list Z) : bool :=
  match x, y with
  | _, [] => false
  | [], _ => true
  | a :: x, b :: y => (a <? b) || ((a =? b) && lexb x y)
  end.
(** [a < b]: integers by value, buffers and strings lexicographically *)
Definition ltv (a b : value) : option bool :=
  match a, b with
  | CInt x, CInt y | CUInt x, CUInt y => Some (x <? y)
  | CBuff x, CBuff y | CAscii x, CAscii y | CUtf8 x, CUtf8 y => Some (lexb x y)
  | _, _ => None
  end.
Definition boolv (o : option bool) : option (value + Z) := option_map (fun b => inl (CBool b)) o.

Definition bits (f : Z -> Z -> Z) (a b : value) : option value :=
  match a, b with
  | CInt x, CInt y => Some (CInt (f x y))
  | CUInt x, CUInt y => Some (CUInt (f x y))
  | _, _ => None
  end.
Fixpoint bits_all (f : Z -> Z -> Z) (a : value) (vs : list value) : option value :=
  match vs with [] => Some a | b :: vs => match bits f a b with Some c => bits_all f c vs | None => None end end.
Definition folded (f : Z -> Z -> Z) (vs : list value) : option (value + Z) :=
  match vs with a :: vs => option_map inl (bits_all f a vs) | [] => None end.
(** the low 128 bits of an integer, read as a signed integer *)
Definition wrap128 (z : Z) : Z := let r := z mod 2 ^ 128 in if r <? 2 ^ 127 then r else r - 2 ^ 128.

(** the words that evaluate all their operands first; [None]: ill-typed *)
Definition word_sem (w : word) (vs : list value) : option (value + Z) :=
  match w, vs with
  | WMod, [CInt a; CInt b] => Some (if b =? 0 then inr err_div_zero else inl (CInt (Z.rem a b)))
  | WMod, [CUInt a; CUInt b] => Some (if b =? 0 then inr err_div_zero else inl (CUInt (a mod b)))
  | WPow, [CUInt a; CUInt b] => Some (exact TUInt (a ^ b) (if 127 <? b then err_pow else err_overflow))
  | WPow, [CInt a; CInt b] =>
      Some (if b <? 0 then (if (a =? 0) || (a =? 1) then inl (CInt a) else inr err_pow)
            else exact TInt (a ^ b) (if (127 <? b) || ((126 <? b) && (0 <=? a)) then err_pow else err_overflow))
  | WLog2, [CUInt a] => Some (if a =? 0 then inr err_log else inl (CUInt (Z.log2 a)))
  | WLog2, [CInt a] => Some (if a <=? 0 then inr err_log else inl (CInt (Z.log2 a)))
  | WSqrti, [CUInt a] => Some (inl (CUInt (Z.sqrt a)))
  | WSqrti, [CInt a] => Some (if a <? 0 then inr err_sqrt else inl (CInt (Z.sqrt a)))
  | WLt, [a; b] => boolv (ltv a b)
  | WGt, [a; b] => boolv (ltv b a)
  | WLe, [a; b] => boolv (option_map negb (ltv b a))
  | WGe, [a; b] => boolv (option_map negb (ltv a b))
  | WNot, [CBool b] => Some (inl (CBool (negb b)))
  | WBitAnd, vs => folded Z.land vs
  | WBitOr, vs => folded Z.lor vs
  | WBitXor, vs => folded Z.lxor vs
  | WXor, [a; b] => folded Z.lxor [a; b]
  | WBitNot, [CUInt a] => Some (inl (CUInt (2 ^ 128 - 1 - a)))
  | WBitNot, [CInt a] => Some (inl (CInt (- a - 1)))
  | WShl, [CUInt a; CUInt b] => Some (inl (CUInt ((a * 2 ^ (b mod 128)) mod 2 ^ 128)))
  | WShl, [CInt a; CUInt b] => Some (inl (CInt (wrap128 (a * 2 ^ (b mod 128)))))
  | WShr, [CUInt a; CUInt b] => Some (inl (CUInt (a / 2 ^ (b mod 128))))
  | WShr, [CInt a; CUInt b] => Some (inl (CInt (a / 2 ^ (b mod 128))))
  | WToInt, [CUInt a] => Some (if a <? 2 ^ 127 then inl (CInt a) else inr err_overflow)
  | WToUint, [CInt a] => Some (if 0 <=? a then inl (CUInt a) else inr err_underflow)
  | _, _ => None
  end.
(** [(pow -1 n)] for n > 127 aborts *)
Definition word_wrong (w : word) (vs : list value) : bool :=
  match w, vs with WPow, [CInt a; CInt b] => (a =? -1) && (127 <? b) | _, _ => false end.

(** [and], [or] of evaluated operands *)
Fixpoint bools (any : bool) (vs : list value) : option bool :=
  match vs with
  | [] => Some (negb any)
  | CBool b :: vs => option_map (fun c => if any then b || c else b && c) (bools any vs)
  | _ :: _ => None
  end.

(** ** Evaluation *)
Inductive res (HS A : Type) := Done (a : A) (h : HS) | Early (v : value) (h : HS) | Abort (code : Z).
Arguments Done {HS A}. Arguments Early {HS A}. Arguments Abort {HS A}.

(** what the words served by the host do to the chain state [HS]; the host may
    refuse, which aborts the transaction without a runtime error code *)
Definition err_host : Z := -1.
Class chain (HS : Type) := mkchain {
  chain_op : prim -> list value -> HS -> option (res HS value);
  chain_cap : Z;     (* the host reads and writes memory below this address *)
  chain_open : scope -> HS -> option HS;            (* entering a call or [as-contract] *)
  chain_close : scope -> bool -> HS -> option HS }. (* leaving it; the flag: keep what was done *)
(** no such words *)
#[export] Instance no_chain HS : chain HS | 100 := mkchain HS (fun _ _ _ => None) (2 ^ 32) (fun _ _ => None) (fun _ _ _ => None).

Section Eval.
Context {HS : Type} {CH : chain HS}.
Definition M (A : Type) := HS -> option (res HS A).
Definition ret {A} (a : A) : M A := fun h => Some (Done a h).
Definition early {A} (v : value) : M A := fun h => Some (Early v h).
Definition abort {A} (c : Z) : M A := fun _ => Some (Abort c).
Definition bad {A} : M A := fun _ => None.
Definition bind {A B} (m : M A) (f : A -> M B) : M B := fun h =>
  match m h with
  | Some (Done a h') => f a h'
  | Some (Early v h') => Some (Early v h')
  | Some (Abort c) => Some (Abort c)
  | None => None
  end.
Notation "'let!' x := m 'in' k" := (bind m (fun x => k)) (at level 200, x name, m at level 100, k at level 200).
Definition of_opt {A} (o : option A) : M A := match o with Some a => ret a | None => bad end.
Definition of_sum (r : value + Z) : M value := match r with inl v => ret v | inr c => abort c end.

Fixpoint mapM {A} (ms : list (M A)) : M (list A) :=
  match ms with [] => ret [] | m :: ms => let! v := m in let! vs := mapM ms in ret (v :: vs) end.

(** corresponding elements of the lists, up to the end of the shortest *)
Fixpoint rows (n : nat) (ls : list (list value)) : list (list value) :=
  match n with
  | O => []
  | S n =>
      if forallb (fun l => match l with [] => false | _ => true end) ls
      then flat_map (fun l => firstn 1 l) ls :: rows n (map (@tl value) ls)
      else []
  end.
Definition zip_rows (ls : list (list value)) : list (list value) := rows (length (hd [] ls)) ls.

(** does the computation complete normally? *)
Definition done {A} (m : M A) (h : HS) : bool := match m h with Some (Done _ _) => true | _ => false end.

Definition venv := list (string * value).

(** short-circuit [and], [or] *)
Fixpoint allM (stop : bool) (ms : list (M value)) : M value :=
  match ms with
  | [] => ret (CBool (negb stop))
  | m :: ms => let! v := m in
      match v with CBool b => if Bool.eqb b stop then ret (CBool stop) else allM stop ms | _ => bad end
  end.

(** fold of an arithmetic word over its operands *)
Fixpoint foldA (o : arith) (t : ty) (v : value) (vs : list value) : M value :=
  match vs with
  | [] => ret v
  | x :: vs =>
      match num_of t v, num_of t x with
      | Some a, Some b => let! r := of_sum (arith2 o t a b) in foldA o t r vs
      | _, _ => bad
      end
  end.
Definition arithM (o : arith) (t : ty) (v : value) (vs : list value) : M value :=
  match vs with
  | [] => match num_of t v with Some a => of_sum (arith1 o t a) | None => bad end
  | _ => foldA o t v vs
  end.
(** known divergences of the compiled arithmetic words: the compiled code applies
    the operation as soon as two operands are available, so an error in a prefix
    hides an early return or error in a later operand *)
Fixpoint foldA_ok (o : arith) (t : ty) (v : value) (ms : list (M value)) (h : HS) : bool :=
  match ms with
  | [] => true
  | m :: ms =>
      match m h with
      | Some (Done x h') =>
          match num_of t v, num_of t x with
          | Some a, Some b =>
              negb (wrong2 o t a b) &&
              match arith2 o t a b with
              | inl r => foldA_ok o t r ms h'
              | inr _ => done (mapM ms) h'
              end
          | _, _ => true
          end
      | _ => true
      end
  end.
Definition arith_ok (o : arith) (t : ty) (v : value) (ms : list (M value)) (h : HS) : bool :=
  match ms with
  | [] => match num_of t v with Some a => negb (wrong1 o t a) | None => true end
  | _ => foldA_ok o t v ms h
  end.

Variables (strict : bool) (funs : string -> list value -> M value).

(** [m], unless [b]: then nothing in the strict evaluator *)
Definition unless {A} (b : HS -> bool) (m : M A) : M A := fun h => if strict && b h then None else m h.

(** [m] inside a scope.  A public call keeps its effects when it yields [ok];
    [strict]: leaving [as-contract] early skips its end in the compiled code *)
Definition is_ok (v : value) : bool := match v with COk _ => true | _ => false end.
Definition scoped (s : scope) (m : M value) : M value := fun h =>
  match chain_open s h with
  | Some h1 =>
      match m h1 with
      | Some (Done v h2) => option_map (Done v) (chain_close s (is_ok v) h2)
      | Some (Early v h2) => if strict then None else option_map (Early v) (chain_close s (is_ok v) h2)
      | Some (Abort c) => Some (Abort c)
      | None => None
      end
  | None => None
  end.
Definition called_as (k : kind) (m : M value) : M value := match kind_scope k with Some s => scoped s m | None => m end.

(** application of what [fold] and [map] are given *)
Definition apply_fn (g : fn) (t : ty) (vs : list value) : M value :=
  match g with
  | FUser k f => called_as k (funs f vs)
  | FWord w => unless (fun _ => word_wrong w vs) (let! x := of_opt (word_sem w vs) in of_sum x)
  | FArith o =>
      match vs with
      | v :: vs => unless (fun h => negb (arith_ok o t v (map ret vs) h)) (arithM o t v vs)
      | [] => bad
      end
  | FBool any => of_opt (option_map CBool (bools any vs))
  end.
(** [fold]: the function is given the element and the value so far *)
Fixpoint foldF (g : fn) (t : ty) (xs : list value) (acc : value) : M value :=
  match xs with [] => ret acc | x :: xs => let! a := apply_fn g t [x; acc] in foldF g t xs a end.
(** [map]: the function is given the elements at the same position *)
Fixpoint mapF (g : fn) (t : ty) (rs : list (list value)) : M (list value) :=
  match rs with
  | [] => ret []
  | vs :: rs => let! v := apply_fn g t vs in let! ws := mapF g t rs in ret (v :: ws)
  end.
Definition pure_fn (g : fn) : bool := match g with FUser _ _ => false | _ => true end.

(** does the expression leave the chain state alone? (no calls) *)
Fixpoint pure (e : expr) : bool :=
  match e with
  | ENum _ _ | EBool _ | EBytes _ _ _ | ENone _ | EVar _ _ => true
  | ESeq a b | ELet _ a b | EUnwrap a b | EUnwrapErr a b | EAsserts a b | EDefault a b | EMerge _ a b
  | EConcat _ a b | EAppend _ _ a b | EElementAt a b | EIndexOf a b => pure a && pure b
  | EIf c a b | EMatchOpt c _ a b | EMatchResp c _ a _ b | ESlice c a b | EReplaceAt c a b => pure c && pure a && pure b
  | EFold g _ a b => pure_fn g && pure a && pure b
  | EAnd es | EOr es | EList _ _ es | EWord _ _ es => forallb pure es
  | EMap g _ _ es => pure_fn g && forallb pure es
  | EEq a es | EArith _ _ a es => pure a && forallb pure es
  | ESome a | EOk a _ | EErr _ a | ETry a | EUnwrapPanic a | EUnwrapErrPanic a
  | EIsSome a | EIsNone a | EIsOk a | EIsErr a | EGet _ a | EMaxLen a _ _ | ELen a => pure a
  | ETuple _ fs => forallb (fun f => pure (snd f)) fs
  | ECall _ _ _ _ | EPrim _ _ | EAsContract _ => false
  end.

Fixpoint eval (e : expr) (r : venv) : M value :=
  match e with
  | ENum t z => ret (num t z)
  | EBool b => ret (CBool b)
  | EBytes _ v _ => ret v
  | ENone _ => ret CNone
  | EVar _ x => of_opt (assoc x r)
  | ESeq a b => let! _ := eval a r in eval b r
  | ELet x a b => let! v := eval a r in eval b ((x, v) :: r)
  | EIf c a b => let! v := eval c r in match v with CBool b' => if b' then eval a r else eval b r | _ => bad end
  | EAnd es => allM false (map (fun e => eval e r) es)
  | EOr es => allM true (map (fun e => eval e r) es)
  | EEq a es => let! v := eval a r in let! vs := mapM (map (fun e => eval e r) es) in ret (CBool (forallb (veqb v) vs))
  | ESome a => let! v := eval a r in ret (CSome v)
  | EOk a _ => let! v := eval a r in ret (COk v)
  | EErr _ a => let! v := eval a r in ret (CErr v)
  | EMatchOpt c x a b => let! v := eval c r in
      match v with CSome v => eval a ((x, v) :: r) | CNone => eval b r | _ => bad end
  | EMatchResp c x a y b => let! v := eval c r in
      match v with COk v => eval a ((x, v) :: r) | CErr v => eval b ((y, v) :: r) | _ => bad end
  | EUnwrap a b => let! v := eval a r in let! w := eval b r in
      match v with CSome v | COk v => ret v | CNone | CErr _ => early w | _ => bad end
  | EUnwrapErr a b => let! v := eval a r in let! w := eval b r in
      match v with CErr v => ret v | COk _ => early w | _ => bad end
  | EAsserts c b => let! v := eval c r in
      match v with
      | CBool true => unless (fun h => negb (pure b && done (eval b r) h)) (ret (CBool true))
      | CBool false => let! w := eval b r in early w
      | _ => bad
      end
  | ETry a => let! v := eval a r in
      match v with CSome v | COk v => ret v | CNone => early CNone | CErr v => early (CErr v) | _ => bad end
  | EUnwrapPanic a => let! v := eval a r in
      match v with CSome v | COk v => ret v | CNone | CErr _ => abort err_panic | _ => bad end
  | EUnwrapErrPanic a => let! v := eval a r in
      match v with CErr v => ret v | COk _ => abort err_panic | _ => bad end
  | EIsSome a => let! v := eval a r in match v with CSome _ => ret (CBool true) | CNone => ret (CBool false) | _ => bad end
  | EIsNone a => let! v := eval a r in match v with CSome _ => ret (CBool false) | CNone => ret (CBool true) | _ => bad end
  | EIsOk a => let! v := eval a r in match v with COk _ => ret (CBool true) | CErr _ => ret (CBool false) | _ => bad end
  | EIsErr a => let! v := eval a r in match v with COk _ => ret (CBool false) | CErr _ => ret (CBool true) | _ => bad end
  | EDefault a b => let! d := eval a r in let! v := eval b r in
      match v with CSome v => ret v | CNone => ret d | _ => bad end
  | ETuple ts fs =>
      let! vs := mapM (map (fun f => let! v := eval (snd f) r in ret (fst f, v)) fs) in
      of_opt (option_map CTuple (fold_right (fun f o => match assoc (fst f) vs, o with
                                                        | Some v, Some l => Some ((fst f, v) :: l)
                                                        | _, _ => None end) (Some []) ts))
  | EGet k a => let! v := eval a r in
      match v with
      | CTuple fs => of_opt (assoc k fs)
      | CSome (CTuple fs) => of_opt (option_map CSome (assoc k fs))
      | CNone => ret CNone
      | _ => bad
      end
  | EMerge ts a b => let! v := eval a r in let! w := eval b r in
      match v, w with
      | CTuple f1, CTuple f2 =>
          of_opt (option_map CTuple (fold_right (fun f o =>
            match (match assoc (fst f) f2 with Some x => Some x | None => assoc (fst f) f1 end), o with
            | Some x, Some l => Some ((fst f, x) :: l)
            | _, _ => None end) (Some []) ts))
      | _, _ => bad
      end
  | EList _ _ es => let! vs := mapM (map (fun e => eval e r) es) in ret (CList vs)
  | EConcat _ a b => let! v := eval a r in let! w := eval b r in of_opt (seq_concat v w)
  | EAppend _ _ a b => let! v := eval a r in let! w := eval b r in
      match v with CList vs => ret (CList (vs ++ [w])) | _ => bad end
  | EMaxLen a n _ => let! v := eval a r in ret (if seq_len v <=? n then CSome v else CNone)
  | ELen a => let! v := eval a r in ret (CUInt (seq_len v))
  | EElementAt a i => let! v := eval a r in let! w := eval i r in
      match w with CUInt n => ret (match seq_nth v n with Some x => CSome x | None => CNone end) | _ => bad end
  | ESlice a i j => let! v := eval a r in let! x := eval i r in let! y := eval j r in
      match x, y with
      | CUInt n, CUInt m => unless (fun _ => (2 ^ 32 <=? n) && (m <=? seq_len v))
          (ret (if (n <=? m) && (m <=? seq_len v) then CSome (seq_slice v n m) else CNone))
      | _, _ => bad
      end
  | EReplaceAt a i b => let! v := eval a r in let! x := eval i r in let! w := eval b r in
      match x with
      | CUInt n =>
          if n <? seq_len v
          then if empty_for v w then abort err_buff_len else of_opt (option_map CSome (seq_put v n w))
          else unless (fun _ => empty_for v w) (ret CNone)
      | _ => bad
      end
  | EIndexOf a b => let! v := eval a r in
      unless (fun h => (seq_len v =? 0) && negb (pure b && done (eval b r) h))
        (let! w := eval b r in
         ret (match find_from w (seq_items v) 0 with Some i => CSome (CUInt i) | None => CNone end))
  | EFold g t a b => let! v := eval a r in let! w := eval b r in foldF g t (seq_items v) w
  | EMap g _ t es => let! vs := mapM (map (fun e => eval e r) es) in
      let! ws := mapF g t (zip_rows (map seq_items vs)) in ret (CList ws)
  | EArith o t a es => let! v := eval a r in
      let ms := map (fun e => eval e r) es in
      unless (fun h => negb (arith_ok o t v ms h)) (let! vs := mapM ms in arithM o t v vs)
  | EWord w _ es => let! vs := mapM (map (fun e => eval e r) es) in
      unless (fun _ => word_wrong w vs) (let! x := of_opt (word_sem w vs) in of_sum x)
  | ECall k f _ es => let! vs := mapM (map (fun e => eval e r) es) in called_as k (funs f vs)
  | EAsContract a => scoped SContract (eval a r)
  | EPrim p es => let! vs := mapM (map (fun e => eval e r) es) in chain_op p vs
  end.
End Eval.

(** ** Functions and programs *)
Section Funs.
Context {HS : Type} {CH : chain HS}.
(** the value of a call: leaving early returns from the function *)
Definition as_fun (m : M value) : M value := fun h : HS =>
  match m h with Some (Early v h') => Some (Done v h') | x => x end.
(** the functions of a program, the last defined first; a body calls functions
    defined before it *)
Fixpoint run_defs (strict : bool) (ds : list fundef) (f : string) (vs : list value) : M value :=
  match ds with
  | [] => bad
  | d :: ds =>
      if String.eqb (fd_name d) f
      then as_fun (eval strict (run_defs strict ds) (fd_body d) (combine (map fst (fd_params d)) vs))
      else run_defs strict ds f vs
  end.
End Funs.
Arguments M HS A : clear implicits.
