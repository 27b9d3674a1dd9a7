(** * Specifications about byte sequences (independent of the model). *)
From Coq Require Import ZArith String List Bool.
Import ListNotations.
Open Scope Z_scope.

(** lexicographic order on byte strings: a proper prefix is smaller *)
Inductive lex_lt : list Z -> list Z -> Prop :=
| lex_nil y ys : lex_lt [] (y :: ys)
| lex_head x y xs ys : x < y -> lex_lt (x :: xs) (y :: ys)
| lex_tail x xs ys : lex_lt xs ys -> lex_lt (x :: xs) (x :: ys).

(** value of a byte string, most / least significant byte first *)
Definition be_value (bs : list Z) : Z := fold_left (fun n b => 256 * n + b) bs 0.
Definition le_value (bs : list Z) : Z := fold_right (fun b n => b + 256 * n) 0 bs.

(** the integer in [-2^127, 2^127) congruent to [n] modulo 2^128 *)
Definition as_signed (n : Z) : Z := (n + 2 ^ 127) mod 2 ^ 128 - 2 ^ 127.

(** ** Decimal notation.  Characters are Unicode scalar values (ASCII codes). *)
Definition is_digit (c : Z) : bool := (48 <=? c) && (c <=? 57).
Definition dec_value (s : list Z) : Z := fold_left (fun n c => 10 * n + (c - 48)) s 0.

(** the natural number a digit string denotes *)
Definition decimal (s : list Z) : option Z :=
  match s with
  | [] => None
  | _ => if forallb is_digit s then Some (dec_value s) else None
  end.

(** the uint / int a string denotes, if any: an optional '-' (code 45, int only), then digits *)
Definition uint_of_string (s : list Z) : option Z :=
  match decimal s with
  | Some n => if n <? 2 ^ 128 then Some n else None
  | None => None
  end.
Definition int_of_string (s : list Z) : option Z :=
  let v := match s with
           | 45 :: r => option_map Z.opp (decimal r)
           | _ => decimal s
           end in
  match v with
  | Some n => if (- 2 ^ 127 <=? n) && (n <? 2 ^ 127) then Some n else None
  | None => None
  end.

(** in memory a string-utf8 is a sequence of 4-byte big-endian scalar values *)
Definition be4 (c : Z) : list Z := [c / 2 ^ 24 mod 256; c / 2 ^ 16 mod 256; c / 2 ^ 8 mod 256; c mod 256].
Definition utf8_mem (cs : list Z) : list Z := flat_map be4 cs.

(** [s] is the canonical decimal notation of [n]: digits without superfluous leading zeros
    (48 is '0'), preceded by '-' (45) when [n] is negative *)
Definition canonical_nat (n : Z) (s : list Z) : Prop :=
  s <> [] /\ forallb is_digit s = true /\ dec_value s = n /\ (length s = 1%nat \/ hd 0 s <> 48).
Definition canonical (n : Z) (s : list Z) : Prop :=
  (0 <= n /\ canonical_nat n s) \/ (n < 0 /\ exists r, s = 45 :: r /\ canonical_nat (- n) r).

(** ** Names.  A contract name is a letter followed by letters, digits, '-' and '_', or the
    reserved name "__transient" (Clarity's contract-name grammar). *)
Definition is_letter (c : Z) : bool := ((65 <=? c) && (c <=? 90)) || ((97 <=? c) && (c <=? 122)).
Definition is_name_char (c : Z) : bool := is_letter c || is_digit c || (c =? 45) || (c =? 95).
Definition transient : list Z := [95; 95; 116; 114; 97; 110; 115; 105; 101; 110; 116].
Definition contract_name (s : list Z) : Prop :=
  s = transient \/ exists c r, s = c :: r /\ is_letter c = true /\ forallb is_name_char r = true.

(** ** Clarity ASCII: printable characters and tab, newline, form feed, carriage return *)
Definition clarity_ascii (c : Z) : Prop := 32 <= c <= 126 \/ c = 9 \/ c = 10 \/ c = 12 \/ c = 13.
