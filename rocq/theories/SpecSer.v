(** * Specification: SIP-005 consensus serialization, independent of the model.

    Stacks Improvement Proposal 005, "Clarity values": a type prefix byte followed by
    the contents; lengths and counts are 4 bytes big-endian, integers 16 bytes
    big-endian two's complement. *)
From Coq Require Import ZArith String Ascii List Bool Lia.
Import ListNotations.
From Verif Require Import Bytes SpecUtf8 Clar.
Open Scope Z_scope.

(** the bytes of a (ASCII) name *)
Definition chars (s : string) : list Z := map (fun c => Z.of_N (N_of_ascii c)) (list_ascii_of_string s).
Definition zlen {A} (l : list A) : Z := Z.of_nat (length l).
Definition u32_be (n : Z) : list Z := be_bytes 4 n.

Definition sip005_prin (p : prin) : list Z :=
  match p with
  | PStd v h => 5 :: v :: h
  | PCon v h n => 6 :: v :: h ++ zlen n :: n
  end.

Fixpoint sip005 (v : value) : list Z :=
  match v with
  | CInt z => 0 :: be_bytes 16 (z mod 2 ^ 128)
  | CUInt z => 1 :: be_bytes 16 z
  | CBuff bs => 2 :: u32_be (zlen bs) ++ bs
  | CBool b => [if b then 3 else 4]
  | CPrin p | CCallable p _ => sip005_prin p
  | COk v => 7 :: sip005 v
  | CErr v => 8 :: sip005 v
  | CNone => [9]
  | CSome v => 10 :: sip005 v
  | CList vs => 11 :: u32_be (zlen vs) ++ flat_map sip005 vs
  | CTuple fs =>
      12 :: u32_be (zlen fs) ++
      (fix go (fs : list (string * value)) : list Z :=
         match fs with
         | [] => []
         | (k, v) :: fs => zlen (chars k) :: chars k ++ sip005 v ++ go fs
         end) fs
  | CAscii bs => 13 :: u32_be (zlen bs) ++ bs
  | CUtf8 cs => 14 :: u32_be (zlen (utf8 cs)) ++ utf8 cs
  end.
Definition sip005_fields : list (string * value) -> list Z :=
  fix go fs :=
    match fs with
    | [] => []
    | (k, v) :: fs => zlen (chars k) :: chars k ++ sip005 v ++ go fs
    end.

(** the values Clarity has: integers of 128 bits, bytes, scalars, 20-byte hashes, lengths
    below 2^32, names below 256 characters *)
Definition byte (b : Z) : Prop := 0 <= b < 256.
Definition prin_bytes_ok (p : prin) : Prop :=
  match p with
  | PStd v h => byte v /\ length h = 20%nat /\ Forall byte h
  | PCon v h n => byte v /\ length h = 20%nat /\ Forall byte h /\ zlen n < 256 /\ Forall byte n
  end.
Fixpoint clarity_value (v : value) : Prop :=
  match v with
  | CInt z => - 2 ^ 127 <= z < 2 ^ 127
  | CUInt z => 0 <= z < 2 ^ 128
  | CBuff bs | CAscii bs => zlen bs < 2 ^ 32 /\ Forall byte bs
  | CUtf8 cs => zlen (utf8 cs) < 2 ^ 32 /\ Forall scalar cs
  | CBool _ | CNone => True
  | CPrin p | CCallable p _ => prin_bytes_ok p
  | COk v | CErr v | CSome v => clarity_value v
  | CList vs => zlen vs < 2 ^ 32 /\ (fix go l := match l with [] => True | v :: l => clarity_value v /\ go l end) vs
  | CTuple fs => zlen fs < 2 ^ 32 /\
      (fix go (fs : list (string * value)) := match fs with [] => True | (k, v) :: fs => zlen (chars k) < 256 /\ clarity_value v /\ go fs end) fs
  end.

(** a trait reference is serialized as the principal it denotes *)
Fixpoint as_data (v : value) : value :=
  match v with
  | CCallable p _ => CPrin p
  | COk v => COk (as_data v)
  | CErr v => CErr (as_data v)
  | CSome v => CSome (as_data v)
  | CList vs => CList (map as_data vs)
  | CTuple fs => CTuple (map (fun f => (fst f, as_data (snd f))) fs)
  | v => v
  end.
