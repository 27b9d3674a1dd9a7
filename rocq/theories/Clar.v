(** * Clarity types and values, as the host and the generator see them.

    The Rust enums [TypeSignature] and [Value] come from the clarity crate (not
    in /repo); the variants used are the ones matched on in
    /repo/clar2wasm/src/wasm_utils.rs 91-1090.

    Simplifications:
    - [CallableType(CallableSubtype::Principal(_))] and [TraitReferenceType] are
      represented by [TPrin]: all functions modelled treat the three alike.
      [CallableType(CallableSubtype::Trait(id))] is [TTrait id].
    - [ListUnionType] is left out ("not a value type", unreachable! in the code).
    - tuple types and values are lists of fields in key order (BTreeMap order).
    - a string-utf8 value is its list of Unicode scalars (the crate stores the
      UTF-8 bytes of each character; host code converts with String::from_utf8
      and char, wasm_utils.rs 816-827 and 1474-1482). *)
From Coq Require Import ZArith String List Bool Lia.
Import ListNotations.
From Verif Require Import Wasm StdEnv SpecBytes SpecUtf8.
Open Scope Z_scope.

(** PrincipalData: [Standard] or [Contract] (a standard issuer and a contract name) *)
Inductive prin :=
| PStd (ver : Z) (hash : list Z)
| PCon (ver : Z) (hash : list Z) (name : list Z).

Inductive ty :=
| TNo | TInt | TUInt | TBool | TPrin
| TTrait (id : list Z)
| TBuff (n : Z) | TAscii (n : Z) | TUtf8 (n : Z)
| TList (n : Z) (t : ty)
| TOpt (t : ty)
| TResp (t e : ty)
| TTuple (fs : list (string * ty)).

Inductive value :=
| CInt (z : Z) | CUInt (z : Z) | CBool (b : bool)
| CPrin (p : prin)
| CCallable (p : prin) (id : list Z)
| CBuff (bs : list Z) | CAscii (bs : list Z) | CUtf8 (cs : list Z)
| CList (vs : list value)
| CNone | CSome (v : value)
| COk (v : value) | CErr (v : value)
| CTuple (fs : list (string * value)).

(** [BufferLength::try_from] / MAX_VALUE_SIZE of the clarity crate *)
Definition max_value_size : Z := 1048576.

(** StandardPrincipalData::new (the version must be below 32; 20-byte hash) *)
Definition prin_std_ok (v : Z) (h : list Z) : Prop :=
  0 <= v < 32 /\ length h = 20%nat /\ Forall (fun b => 0 <= b < 256) h.
(** ContractName::try_from: 1 to 128 characters of the contract-name grammar *)
Definition prin_ok (p : prin) : Prop :=
  match p with
  | PStd v h => prin_std_ok v h
  | PCon v h n => prin_std_ok v h /\ contract_name n /\ (length n <= 128)%nat
  end.

(** ** Which values a type admits *)
Fixpoint has_type (t : ty) (v : value) {struct t} : Prop :=
  match t, v with
  | TInt, CInt z => - 2 ^ 127 <= z < 2 ^ 127
  | TUInt, CUInt z => 0 <= z < 2 ^ 128
  | TBool, CBool _ => True
  | TPrin, CPrin p => prin_ok p
  | TTrait i, CCallable p j => i = j /\ prin_ok p /\ exists v h n, p = PCon v h n
  | TBuff n, CBuff bs => Z.of_nat (length bs) <= n /\ Forall (fun b => 0 <= b < 256) bs
  | TAscii n, CAscii bs => Z.of_nat (length bs) <= n /\ Forall clarity_ascii bs
  | TUtf8 n, CUtf8 cs => Z.of_nat (length cs) <= n /\ Forall scalar cs
  | TList n t, CList vs => Z.of_nat (length vs) <= n /\ Forall (has_type t) vs
  | TOpt t, CNone => True
  | TOpt t, CSome v => has_type t v
  | TResp t _, COk v => has_type t v
  | TResp _ e, CErr v => has_type e v
  | TTuple fs, CTuple vs =>
      (fix go (fs : list (string * ty)) (vs : list (string * value)) {struct fs} : Prop :=
         match fs, vs with
         | [], [] => True
         | (k, t) :: fs, (k', v) :: vs => k = k' /\ has_type t v /\ go fs vs
         | _, _ => False
         end) fs vs
  | _, _ => False
  end.

(** ** Well-formed types: bounded lengths, non-empty tuples with distinct keys *)
Fixpoint ty_ok (t : ty) : Prop :=
  match t with
  | TBuff n | TAscii n | TUtf8 n => 0 <= n <= max_value_size
  | TList n t => 0 <= n <= max_value_size /\ ty_ok t
  | TOpt t => ty_ok t
  | TResp t e => ty_ok t /\ ty_ok e
  | TTuple fs =>
      fs <> [] /\ NoDup (map fst fs) /\
      (fix go (fs : list (string * ty)) : Prop :=
         match fs with [] => True | (_, t) :: fs => ty_ok t /\ go fs end) fs
  | _ => True
  end.

Section TyInd.
  Variable P : ty -> Prop.
  Hypothesis HNo : P TNo. Hypothesis HInt : P TInt. Hypothesis HUInt : P TUInt.
  Hypothesis HBool : P TBool. Hypothesis HPrin : P TPrin. Hypothesis HTrait : forall i, P (TTrait i).
  Hypothesis HBuff : forall n, P (TBuff n). Hypothesis HAscii : forall n, P (TAscii n). Hypothesis HUtf8 : forall n, P (TUtf8 n).
  Hypothesis HList : forall n t, P t -> P (TList n t).
  Hypothesis HOpt : forall t, P t -> P (TOpt t).
  Hypothesis HResp : forall t e, P t -> P e -> P (TResp t e).
  Hypothesis HTuple : forall fs, Forall (fun f => P (snd f)) fs -> P (TTuple fs).
  Fixpoint ty_ind' (t : ty) : P t :=
    match t with
    | TNo => HNo | TInt => HInt | TUInt => HUInt | TBool => HBool | TPrin => HPrin | TTrait i => HTrait i
    | TBuff n => HBuff n | TAscii n => HAscii n | TUtf8 n => HUtf8 n
    | TList n t => HList n t (ty_ind' t)
    | TOpt t => HOpt t (ty_ind' t)
    | TResp t e => HResp t e (ty_ind' t) (ty_ind' e)
    | TTuple fs => HTuple fs ((fix go fs : Forall (fun f => P (snd f)) fs :=
        match fs with [] => Forall_nil _ | (k, t) :: fs => Forall_cons (k, t) (ty_ind' t) (go fs) end) fs)
    end.
End TyInd.

(** ** Sizes *)

(** wasm_utils.rs 626-651 [get_type_size] (i32 arithmetic, no overflow modelled) *)
Fixpoint get_type_size (t : ty) : Z :=
  match t with
  | TInt | TUInt => 16
  | TBool => 4
  | TPrin | TTrait _ | TBuff _ | TAscii _ | TUtf8 _ | TList _ _ => 8
  | TOpt t => 4 + get_type_size t
  | TTuple fs => fold_right (fun f n => get_type_size (snd f) + n) 0 fs
  | TResp t e => 4 + get_type_size t + get_type_size e
  | TNo => 4
  end.

(** wasm_utils.rs 654-713 [get_type_in_memory_size] *)
Fixpoint get_type_in_memory_size (t : ty) (repr : bool) : Z :=
  match t with
  | TInt | TUInt => 16
  | TAscii n | TBuff n => n + (if repr then 8 else 0)
  | TPrin | TTrait _ => 150 + (if repr then 8 else 0)
  | TOpt t => 4 + get_type_in_memory_size t repr
  | TList n t => if repr then 8 + n * get_type_in_memory_size t true else n * get_type_size t
  | TUtf8 n => n * 4 + (if repr then 8 else 0)
  | TNo | TBool => 4
  | TTuple fs => fold_right (fun f n => get_type_in_memory_size (snd f) repr + n) 0 fs
  | TResp t e => 4 + get_type_in_memory_size t repr + get_type_in_memory_size e repr
  end.

(** wasm_utils.rs 1189-1205 [is_in_memory_type] *)
Definition is_in_memory_type (t : ty) : bool :=
  match t with
  | TNo | TInt | TUInt | TBool | TTuple _ | TOpt _ | TResp _ _ => false
  | TBuff _ | TAscii _ | TUtf8 _ | TList _ _ | TPrin | TTrait _ => true
  end.

(** wasm_utils.rs 1207-1242 and wasm_generator.rs 203-235 [clar2wasm_ty]: the
    Wasm types of a value on the operand stack, first-pushed first *)
Fixpoint clar2wasm_ty (t : ty) : list vt :=
  match t with
  | TNo => [T32]
  | TInt | TUInt => [T64; T64]
  | TResp t e => T32 :: clar2wasm_ty t ++ clar2wasm_ty e
  | TBuff _ | TAscii _ | TUtf8 _ | TList _ _ | TPrin | TTrait _ => [T32; T32]
  | TBool => [T32]
  | TOpt t => T32 :: clar2wasm_ty t
  | TTuple fs => flat_map (fun f => clar2wasm_ty (snd f)) fs
  end.
