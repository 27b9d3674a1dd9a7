(** * Well-typed expressions

    The trees the generator receives: accepted by the type checker, with node
    types made consistent by the generator's [set_expr_type] calls.  A value of
    type [t0] may be used where [t] is expected if [widens t0 t]: the same type up
    to larger maximal lengths (the representation is then the same).  Trees in
    which a narrower type of another shape reaches a wider one (e.g. a variable
    of type [(optional NoType)] where an [(optional int)] is expected) are not
    well typed here: the generator emits ill-typed code for them. *)
From Coq Require Import ZArith String List Bool Lia.
Import ListNotations.
From Verif Require Import Wasm StdEnv Clar Equal Ast SpecLang Lang.
Open Scope Z_scope.

Fixpoint widens (t0 t : ty) {struct t0} : bool :=
  match t0, t with
  | TNo, TNo | TInt, TInt | TUInt, TUInt | TBool, TBool | TPrin, TPrin => true
  | TTrait i, TTrait j => list_eqb Z.eqb i j
  | TBuff n, TBuff m | TAscii n, TAscii m | TUtf8 n, TUtf8 m => n <=? m
  | TList n a, TList m b => (n <=? m) && widens a b
  | TOpt a, TOpt b => widens a b
  | TResp a b, TResp c d => widens a c && widens b d
  | TTuple x, TTuple y =>
      (fix go (x y : list (string * ty)) {struct x} : bool :=
         match x, y with
         | [], [] => true
         | (k, a) :: x, (k', b) :: y => String.eqb k k' && widens a b && go x y
         | _, _ => false
         end) x y
  | _, _ => false
  end.

Fixpoint nodupb (ks : list string) : bool :=
  match ks with [] => true | k :: ks => negb (existsb (String.eqb k) ks) && nodupb ks end.
Fixpoint ty_okb (t : ty) : bool :=
  match t with
  | TBuff n | TAscii n | TUtf8 n => (0 <=? n) && (n <=? max_value_size)
  | TList n t => (0 <=? n) && (n <=? max_value_size) && ty_okb t
  | TOpt t => ty_okb t
  | TResp t e => ty_okb t && ty_okb e
  | TTuple fs => negb (match fs with [] => true | _ => false end) && nodupb (map fst fs) && forallb (fun f => ty_okb (snd f)) fs
  | _ => true
  end.
Definition is_bool (t : ty) : bool := match t with TBool => true | _ => false end.
Definition is_uint (t : ty) : bool := match t with TUInt => true | _ => false end.
Definition is_num (t : ty) : bool := match t with TInt | TUInt => true | _ => false end.
Definition is_opt (t : ty) : bool := match t with TOpt _ => true | _ => false end.
Definition is_resp (t : ty) : bool := match t with TResp _ _ => true | _ => false end.
Definition is_seq (t : ty) : bool := match t with TBuff _ | TAscii _ | TUtf8 _ | TList _ _ => true | _ => false end.
(** the same kind of sequence, of maximal length [n] *)
Definition with_max (n : Z) (t : ty) : ty :=
  match t with TBuff _ => TBuff n | TAscii _ => TAscii n | TUtf8 _ => TUtf8 n | TList _ t => TList n t | t => t end.

(** operand types of the words that evaluate their operands first *)
Definition wt_word (w : word) (t : ty) (ts : list ty) : bool :=
  match w, ts with
  | (WMod | WPow), [a; b] => is_num t && widens a t && widens b t
  | (WLog2 | WSqrti | WBitNot), [a] => is_num t && widens a t
  | (WLt | WLe | WGt | WGe), [a; b] =>
      is_bool t &&
      match a, b with
      | TInt, TInt | TUInt, TUInt | TBuff _, TBuff _ | TAscii _, TAscii _ | TUtf8 _, TUtf8 _ => true
      | _, _ => false
      end
  | WNot, [a] => is_bool t && is_bool a
  | (WBitAnd | WBitOr | WBitXor), a :: ts => is_num t && widens a t && forallb (fun b => widens b t) ts
  | WXor, [a; b] => is_num t && widens a t && widens b t
  | (WShl | WShr), [a; b] => is_num t && widens a t && is_uint b
  | WToInt, [a] => match t with TInt => is_uint a | _ => false end
  | WToUint, [a] => is_uint t && match a with TInt => true | _ => false end
  | _, _ => false
  end.

(** public functions return a response *)
Definition kind_ret (k : kind) (tr : ty) : bool := match k with KPublic => match tr with TResp _ _ => true | _ => false end | _ => true end.
(** a function applied to operands of types [ts], yielding [t]; results with parts
    in memory are left out: the code emitted for them is wrong in [fold] and [map]
    (refutation theorems in PropLang2.v) *)
Definition wt_fn (sig : list (string * fsig)) (g : fn) (t : ty) (ts : list ty) : bool :=
  match g with
  | FUser k f =>
      match assoc f sig with
      | Some (ps, tr) => (length ts =? length ps)%nat && forallb (fun p => widens (fst p) (snd p)) (combine ts ps) &&
          ty_okb tr && widens tr t && negb (has_in_memory tr) && kind_ret k tr
      | None => false
      end
  | FWord w => wt_word w t ts
  | FArith _ => is_num t && forallb (fun a => widens a t) ts && negb (match ts with [] => true | _ => false end)
  | FBool _ => is_bool t && forallb is_bool ts && negb (match ts with [] => true | _ => false end)
  end.
(** the bytes of an element have a 32-bit length *)
Definition small_elem (t : ty) : bool := elem_size t <? m32.

(** types the host reads and writes: no traits *)
Fixpoint storable (t : ty) : bool :=
  match t with
  | TNo | TTrait _ => false
  | TList _ t | TOpt t => storable t
  | TResp t e => storable t && storable e
  | TTuple fs => forallb (fun f => storable (snd f)) fs
  | _ => true
  end.

Definition tenv := list (string * ty).

(** [wt sig rt G e]: [e] is well typed in [G], in a function returning [rt] *)
Fixpoint wt (sig : list (string * fsig)) (rt : ty) (G : tenv) (e : expr) : bool :=
  let go := wt sig rt in
  match e with
  | ENum t z => is_num t && fitsb t z
  | EBool _ => true
  | EBytes t _ _ => match t with TBuff _ | TAscii _ | TUtf8 _ | TPrin => true | _ => false end
  | ENone t => is_opt t
  | EVar t x => match assoc x G with Some t0 => widens t0 t | None => false end
  | ESeq a b => go G a && go G b
  | ELet x a b => go G a && go ((x, ty_of a) :: G) b
  | EIf c a b => go G c && is_bool (ty_of c) && go G a && go G b && widens (ty_of b) (ty_of a)
  | EAnd es | EOr es => forallb (fun e => go G e && is_bool (ty_of e)) es
  | EEq a es => go G a && ty_okb (ty_of a) && equal_implemented (ty_of a) &&
      forallb (fun e => go G e && widens (ty_of e) (ty_of a)) es
  | ESome a | EOk a _ | EErr _ a => go G a
  | EMatchOpt c x a b =>
      go G c && match ty_of c with TOpt t => go ((x, t) :: G) a && go G b && widens (ty_of b) (ty_of a) | _ => false end
  | EMatchResp c x a y b =>
      go G c && match ty_of c with
                | TResp t u => go ((x, t) :: G) a && go ((y, u) :: G) b && widens (ty_of b) (ty_of a)
                | _ => false end
  | EUnwrap a b => go G a && (is_opt (ty_of a) || is_resp (ty_of a)) && go G b && widens (ty_of b) rt
  | EUnwrapErr a b => go G a && is_resp (ty_of a) && go G b && widens (ty_of b) rt
  | EAsserts c b => go G c && is_bool (ty_of c) && go G b && widens (ty_of b) rt
  | ETry a => go G a &&
      match ty_of a, rt with
      | TOpt t, TOpt r => list_eqb vt_eqb (clar2wasm_ty t) (clar2wasm_ty r)
      | TResp _ u, TResp _ s => widens u s
      | _, _ => false
      end
  | EUnwrapPanic a => go G a && (is_opt (ty_of a) || is_resp (ty_of a))
  | EUnwrapErrPanic a | EIsOk a | EIsErr a => go G a && is_resp (ty_of a)
  | EIsSome a | EIsNone a => go G a && is_opt (ty_of a)
  | EDefault a b => go G a && go G b && match ty_of b with TOpt t => widens t (ty_of a) | _ => false end
  | ETuple ts fs =>
      ty_okb (TTuple ts) &&
      forallb (fun f => match assoc (fst f) ts with
                        | Some t => go G (snd f) && widens (ty_of (snd f)) t
                        | None => false end) fs &&
      forallb (fun f => existsb (fun g => String.eqb (fst g) (fst f)) fs) ts
  | EGet k a =>
      go G a && match ty_of a with
                | TTuple ts | TOpt (TTuple ts) => ty_okb (TTuple ts) && has_key k ts
                | _ => false end
  | EMerge ts a b =>
      go G a && go G b &&
      match ty_of a, ty_of b with
      | TTuple ta, TTuple tb =>
          ty_okb (TTuple ts) && ty_okb (TTuple ta) && ty_okb (TTuple tb) &&
          forallb (fun f => has_key (fst f) ts) ta && forallb (fun f => has_key (fst f) ts) tb &&
          forallb (fun f => if has_key (fst f) tb then widens (field_ty (fst f) tb) (snd f)
                            else has_key (fst f) ta && widens (field_ty (fst f) ta) (snd f)) ts
      | _, _ => false
      end
  | EList n t es => ty_okb (TList n t) && (Z.of_nat (length es) <=? n) && forallb (fun e => go G e && widens (ty_of e) t) es
  | EConcat t a b => is_seq t && ty_okb t && go G a && widens (ty_of a) t && go G b && widens (ty_of b) t &&
      (seq_max (ty_of a) + seq_max (ty_of b) <=? seq_max t)
  | EAppend n t a b =>
      ty_okb (TList n t) && go G a && widens (ty_of a) (TList (n - 1) t) && go G b && widens (ty_of b) t
  | EMaxLen a n t => go G a && is_seq (ty_of a) && ty_okb (ty_of a) && (0 <=? n) && (n <? m32) && widens (with_max n (ty_of a)) t
  | ELen a => go G a && is_seq (ty_of a) && ty_okb (ty_of a)
  | EElementAt a i => go G a && is_seq (ty_of a) && ty_okb (ty_of a) && go G i && is_uint (ty_of i)
  | ESlice a i j => go G a && is_seq (ty_of a) && ty_okb (ty_of a) && small_elem (ty_of a) &&
      go G i && is_uint (ty_of i) && go G j && is_uint (ty_of j)
  | EReplaceAt a i b => go G a && is_seq (ty_of a) && ty_okb (ty_of a) && go G i && is_uint (ty_of i) &&
      go G b && widens (ty_of b) (elem_ty (ty_of a))
  | EIndexOf a b => go G a && is_seq (ty_of a) && ty_okb (ty_of a) && go G b && ty_okb (ty_of b) && equal_implemented (ty_of b) &&
      widens (elem_ty (ty_of a)) (ty_of b)
  | EFold g t a b => go G a && is_seq (ty_of a) && ty_okb (ty_of a) && go G b && widens (ty_of b) t && ty_okb t &&
      negb (has_in_memory t) && wt_fn sig g t [elem_ty (ty_of a); t]
  | EMap g n t es =>
      ty_okb (TList n t) && negb (has_in_memory t) && wt_fn sig g t (map (fun e => elem_ty (ty_of e)) es) &&
      forallb (fun e => go G e && (is_seq (ty_of e) && ty_okb (ty_of e) && (seq_max (ty_of e) * elem_size (ty_of e) <? 2 ^ 31))) es &&
      existsb (fun e => seq_max (ty_of e) <=? n) es && (seq_max (TList n t) * get_type_size t <? 2 ^ 31)
  | EArith _ t a es => is_num t && go G a && widens (ty_of a) t && forallb (fun e => go G e && widens (ty_of e) t) es
  | EWord w t es => forallb (go G) es && wt_word w t (map ty_of es)
  | EAsContract a => go G a
  | ECall k f t es =>
      match assoc f sig with
      | Some (ts, tr) => forallb (go G) es && (length es =? length ts)%nat &&
          forallb (fun p => widens (ty_of (fst p)) (snd p)) (combine es ts) && ty_okb tr && widens tr t &&
          kind_ret k tr
      | None => false
      end
  | EPrim p es => forallb (go G) es && (length es =? length (prim_args p))%nat &&
      forallb (fun q => widens (ty_of (fst q)) (snd q)) (combine es (prim_args p)) &&
      forallb ty_okb (prim_args p) && ty_okb (prim_ret p) && forallb storable (prim_args p) && storable (prim_ret p)
  end.

(** the literals of an expression kept in memory *)
Definition prim_lits (p : prim) : list (ty * value * Z) :=
  if prim_named p then [(TAscii (Z.of_nat (length (prim_name p))), CAscii (prim_name p), prim_addr p)] else [].
Fixpoint lits (e : expr) : list (ty * value * Z) :=
  match e with
  | EBytes t v o => [(t, v, o)]
  | ENum _ _ | EBool _ | ENone _ | EVar _ _ => []
  | ESeq a b | ELet _ a b | EUnwrap a b | EUnwrapErr a b | EAsserts a b | EDefault a b | EMerge _ a b
  | EElementAt a b | EConcat _ a b | EAppend _ _ a b | EIndexOf a b | EFold _ _ a b => lits a ++ lits b
  | EIf c a b | EMatchOpt c _ a b | EMatchResp c _ a _ b | ESlice c a b | EReplaceAt c a b => lits c ++ lits a ++ lits b
  | EAnd es | EOr es | EWord _ _ es | EList _ _ es | ECall _ _ _ es | EMap _ _ _ es => flat_map lits es
  | EEq a es | EArith _ _ a es => lits a ++ flat_map lits es
  | ESome a | EOk a _ | EErr _ a | ETry a | EUnwrapPanic a | EUnwrapErrPanic a
  | EIsSome a | EIsNone a | EIsOk a | EIsErr a | EGet _ a | EMaxLen a _ _ | ELen a | EAsContract a => lits a
  | ETuple _ fs => flat_map (fun f => lits (snd f)) fs
  | EPrim p es => prim_lits p ++ flat_map lits es
  end.

(** the words and scopes served by the host *)
Inductive use := UPrim (p : prim) | UScope (s : scope).
Definition kind_uses (k : kind) : list use := match kind_scope k with Some s => [UScope s] | None => [] end.
Definition fn_uses (g : fn) : list use := match g with FUser k _ => kind_uses k | _ => [] end.
Fixpoint uses (e : expr) : list use :=
  match e with
  | EBytes _ _ _ | ENum _ _ | EBool _ | ENone _ | EVar _ _ => []
  | ESeq a b | ELet _ a b | EUnwrap a b | EUnwrapErr a b | EAsserts a b | EDefault a b | EMerge _ a b
  | EElementAt a b | EConcat _ a b | EAppend _ _ a b | EIndexOf a b => uses a ++ uses b
  | EFold g _ a b => fn_uses g ++ uses a ++ uses b
  | EMap g _ _ es => fn_uses g ++ flat_map uses es
  | EIf c a b | EMatchOpt c _ a b | EMatchResp c _ a _ b | ESlice c a b | EReplaceAt c a b => uses c ++ uses a ++ uses b
  | EAnd es | EOr es | EWord _ _ es | EList _ _ es => flat_map uses es
  | ECall k _ _ es => kind_uses k ++ flat_map uses es
  | EAsContract a => UScope SContract :: uses a
  | EEq a es | EArith _ _ a es => uses a ++ flat_map uses es
  | ESome a | EOk a _ | EErr _ a | ETry a | EUnwrapPanic a | EUnwrapErrPanic a
  | EIsSome a | EIsNone a | EIsOk a | EIsErr a | EGet _ a | EMaxLen a _ _ | ELen a => uses a
  | ETuple _ fs => flat_map (fun f => uses (snd f)) fs
  | EPrim p es => UPrim p :: flat_map uses es
  end.

(** a program (last definition first): functions are defined before they are
    used, under new names; the body yields the declared type *)
Definition prog_sig (ds : list fundef) : list (string * fsig) := map def_sig ds.
Fixpoint wt_prog (ds : list fundef) : bool :=
  match ds with
  | [] => true
  | d :: ds =>
      wt (prog_sig ds) (fd_ret d) (fd_params d) (fd_body d) && widens (ty_of (fd_body d)) (fd_ret d) && ty_okb (fd_ret d) &&
      negb (has_key (fd_name d) (map (fun d => (fd_name d, fd_ret d)) ds)) && wt_prog ds
  end.
Definition prog_lits (ds : list fundef) : list (ty * value * Z) := flat_map (fun d => lits (fd_body d)) ds.
Definition prog_uses (ds : list fundef) : list use := flat_map (fun d => uses (fd_body d)) ds.
