(** * Specification: the byte sequences from which a value of a type may be read,
    independent of the model.

    The canonical encoding is SIP-005's ([sip005]).  A reader of tuples also accepts the
    items in any order, and items with other keys, which it drops. *)
From Coq Require Import ZArith String List Bool.
Import ListNotations.
From Verif Require Import SpecBytes SpecUtf8 Clar SpecSer SpecSkip.
Open Scope Z_scope.

Definition zlist_dec : forall a b : list Z, {a = b} + {a <> b} := list_eq_dec Z.eq_dec.
(** an item of a serialized tuple: its key and the encoding of its value *)
Definition item := (list Z * list Z)%type.
Definition item_bytes (it : item) : list Z := zlen (fst it) :: fst it ++ snd it.
(** an item that may be dropped: a Clarity name and a well-formed value (without lists) *)
Definition droppable (it : item) : Prop :=
  clarity_name (fst it) /\ exists v, wire v /\ lists_in v = [] /\ snd it = sip005 v.

(** [readable t v bs]: a reader of type [t] reads [v] from exactly the bytes [bs].  Principals may
    have any version byte and any contract name of less than 256 bytes. *)
Fixpoint readable (t : ty) (v : value) (bs : list Z) {struct t} : Prop :=
  match t, v with
  | TInt, CInt z => - 2 ^ 127 <= z < 2 ^ 127 /\ bs = sip005 v
  | TUInt, CUInt z => 0 <= z < 2 ^ 128 /\ bs = sip005 v
  | TBool, CBool _ => bs = sip005 v
  | TPrin, CPrin p => prin_bytes_ok p /\ bs = sip005 v
  | TTrait i, CCallable p j => i = j /\ prin_bytes_ok p /\ bs = sip005 v
  | TBuff n, CBuff cs => zlen cs <= n /\ Forall byte cs /\ bs = sip005 v
  | TAscii n, CAscii cs => zlen cs <= n /\ Forall clarity_ascii cs /\ bs = sip005 v
  | TUtf8 n, CUtf8 cs => zlen cs <= n /\ Forall scalar cs /\ bs = sip005 v
  | TOpt _, CNone => bs = [9]
  | TOpt t, CSome v => exists b, bs = 10 :: b /\ readable t v b
  | TResp t _, COk v => exists b, bs = 7 :: b /\ readable t v b
  | TResp _ e, CErr v => exists b, bs = 8 :: b /\ readable e v b
  | TList n t, CList vs => zlen vs <= n /\ exists bss, bs = 11 :: u32_be (zlen vs) ++ concat bss /\ Forall2 (readable t) vs bss
  | TTuple fs, CTuple vs =>
      exists its, bs = 12 :: u32_be (zlen its) ++ flat_map item_bytes its /\ zlen its < 2 ^ 32 /\
        map fst vs = map fst fs /\
        (* every key of the type occurs exactly once, the others may be dropped *)
        (forall k, In k (map fst fs) -> count_occ zlist_dec (map fst its) (chars k) = 1%nat) /\
        (forall it, In it its -> In (fst it) (map (fun f => chars (fst f)) fs) \/ droppable it) /\
        (fix go (fs : list (string * ty)) (vs : list (string * value)) {struct fs} : Prop :=
           match fs, vs with
           | (k, t) :: fs, (_, v) :: vs => (exists b, In (chars k, b) its /\ readable t v b) /\ go fs vs
           | _, _ => True
           end) fs vs
  | _, _ => False
  end.

(** types whose readers refuse everything that is not readable *)
Fixpoint exact_type (t : ty) : Prop :=
  match t with
  | TNo | TUtf8 _ | TTuple _ => False
  | TOpt t | TList _ t => exact_type t
  | TResp t e => exact_type t /\ exact_type e
  | _ => True
  end.

(** well-formed items of a tuple in which a key of the type is missing or repeated *)
Definition reads_item (fs : list (string * ty)) (it : item) : Prop :=
  (exists k t v, In (k, t) fs /\ fst it = chars k /\ readable t v (snd it)) \/
  (~ In (fst it) (map (fun f => chars (fst f)) fs) /\ droppable it).
Fixpoint miskeyed (t : ty) (bs : list Z) : Prop :=
  match t with
  | TOpt t => exists b, bs = 10 :: b /\ miskeyed t b
  | TResp t e => exists b, (bs = 7 :: b /\ miskeyed t b) \/ (bs = 8 :: b /\ miskeyed e b)
  | TTuple fs =>
      exists its, bs = 12 :: u32_be (zlen its) ++ flat_map item_bytes its /\ zlen its < 2 ^ 32 /\
        (forall it, In it its -> reads_item fs it) /\
        exists k, In k (map fst fs) /\ count_occ zlist_dec (map fst its) (chars k) <> 1%nat
  | _ => False
  end.
