(** * UTF-8 (Unicode 15, section 3.9), independent of the model. *)
From Coq Require Import ZArith List Bool.
Import ListNotations.
Open Scope Z_scope.

(** Unicode scalar values: code points except the surrogates *)
Definition scalar (c : Z) : Prop := 0 <= c < 0xD800 \/ 0xE000 <= c < 0x110000.

(** the UTF-8 encoding of a scalar value (Table 3-6) *)
Definition utf8_char (c : Z) : list Z :=
  if c <? 0x80 then [c]
  else if c <? 0x800 then [0xC0 + c / 64; 0x80 + c mod 64]
  else if c <? 0x10000 then [0xE0 + c / 4096; 0x80 + c / 64 mod 64; 0x80 + c mod 64]
  else [0xF0 + c / 262144; 0x80 + c / 4096 mod 64; 0x80 + c / 64 mod 64; 0x80 + c mod 64].
Definition utf8 (cs : list Z) : list Z := flat_map utf8_char cs.

(** a byte sequence is well-formed UTF-8 for the scalars [cs] *)
Definition utf8_of (bs cs : list Z) : Prop := Forall scalar cs /\ bs = utf8 cs.
