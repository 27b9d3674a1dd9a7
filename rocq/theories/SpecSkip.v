(** * Specification: Clarity names and well-formed serialized values, independent of the model. *)
From Coq Require Import ZArith String List Bool.
Import ListNotations.
From Verif Require Import SpecBytes SpecUtf8 Clar SpecSer.
Open Scope Z_scope.

(** Clarity's grammar of names, at most 128 characters:
    [a-zA-Z][a-zA-Z0-9-_!?+<>=/*]* | [-+=/*] | [<>]=? *)
Definition is_clarity_char (c : Z) : bool :=
  is_letter c || is_digit c || existsb (Z.eqb c) [45; 95; 33; 63; 43; 60; 62; 61; 47; 42].
Definition clarity_name (s : list Z) : Prop :=
  (length s <= 128)%nat /\
  ((exists c r, s = c :: r /\ is_letter c = true /\ forallb is_clarity_char r = true)
   \/ In s [[45]; [43]; [61]; [47]; [42]; [60]; [62]; [60; 61]; [62; 61]]).

(** The values whose serialization a contract can meet: integers of 128 bits, byte
    strings, printable ASCII, Unicode scalars, principals with a version below 32 and a
    contract name, lengths below 2^32; tuples have at least one field and Clarity names. *)
Definition wire_prin (p : prin) : Prop :=
  match p with
  | PStd v h => 0 <= v < 32 /\ length h = 20%nat /\ Forall byte h
  | PCon v h n => 0 <= v < 32 /\ length h = 20%nat /\ Forall byte h /\ clarity_name n
  end.
Fixpoint wire (v : value) : Prop :=
  match v with
  | CInt z => - 2 ^ 127 <= z < 2 ^ 127
  | CUInt z => 0 <= z < 2 ^ 128
  | CBuff bs => zlen bs < 2 ^ 32 /\ Forall byte bs
  | CAscii bs => zlen bs < 2 ^ 32 /\ Forall clarity_ascii bs
  | CUtf8 cs => zlen (utf8 cs) < 2 ^ 32 /\ Forall scalar cs
  | CBool _ | CNone => True
  | CPrin p | CCallable p _ => wire_prin p
  | COk v | CErr v | CSome v => wire v
  | CList vs => zlen vs < 2 ^ 32 /\ (fix go l := match l with [] => True | v :: l => wire v /\ go l end) vs
  | CTuple fs => fs <> [] /\ zlen fs < 2 ^ 32 /\
      (fix go (fs : list (string * value)) := match fs with [] => True | (k, v) :: fs => clarity_name (chars k) /\ wire v /\ go fs end) fs
  end.
(** the outermost lists occurring in a value *)
Fixpoint lists_in (v : value) : list (list value) :=
  match v with
  | CList vs => [vs]
  | COk v | CErr v | CSome v => lists_in v
  | CTuple fs => flat_map (fun f => lists_in (snd f)) fs
  | _ => []
  end.
