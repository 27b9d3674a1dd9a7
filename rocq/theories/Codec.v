(** * The host side of the value codec: /repo/clar2wasm/src/wasm_utils.rs

    [Result<_, Error>] is [option]: every error aborts the call and no caller
    distinguishes them.  Offsets are i32 in the code; they are integers here.
    A negative offset cast [as usize] is far outside memory, and so is one whose
    i32 sum overflowed, so both fail in the code and here alike. *)
From Coq Require Import ZArith String List Bool Lia.
Import ListNotations.
From Verif Require Import Wasm StdEnv Bytes SpecBytes SpecUtf8 Clar.
Open Scope Z_scope.

(** wasmtime [Memory::read]: [n] bytes at [off], or an error when out of bounds *)
Definition hread (m : mem) (off n : Z) : option (list Z) :=
  if (0 <=? off) && (0 <=? n) && (off + n <=? msize m) then Some (bytes_at m off (Z.to_nat n)) else None.
(** wasmtime [Memory::write] *)
Definition hwrite (m : mem) (off : Z) (bs : list Z) : option mem :=
  if (0 <=? off) && (off + Z.of_nat (length bs) <=? msize m) then Some (write_bytes m off bs) else None.

Notation "'do' X <- A ; B" := (match A with Some X => B | None => None end)
  (at level 200, X pattern, A at level 100, B at level 200).

(** i32::from_le_bytes / u64::from_le_bytes of what [memory.read] returned *)
Definition i32_of (bs : list Z) : Z := sgn32 (le_value bs).
Definition u64_of (bs : list Z) : Z := le_value bs.

(** ** Constructors of the clarity crate that can fail *)

Definition is_clarity_ascii (c : Z) : bool :=
  ((32 <=? c) && (c <=? 126)) || (c =? 9) || (c =? 10) || (c =? 12) || (c =? 13).
(** Value::string_ascii_from_bytes *)
Definition string_ascii_from_bytes (bs : list Z) : option value :=
  if forallb is_clarity_ascii bs && (Z.of_nat (length bs) <=? max_value_size) then Some (CAscii bs) else None.
(** Value::buff_from *)
Definition buff_from (bs : list Z) : option value :=
  if Z.of_nat (length bs) <=? max_value_size then Some (CBuff bs) else None.

Definition is_scalar (c : Z) : bool :=
  ((0 <=? c) && (c <? 0xD800)) || ((0xE000 <=? c) && (c <? 0x110000)).
(** Value::string_utf8_from_unicode_scalars: 4-byte big-endian scalars *)
Fixpoint scalars_of (bs : list Z) : option (list Z) :=
  match bs with
  | [] => Some []
  | a :: b :: c :: d :: bs =>
      let s := be_value [a; b; c; d] in
      if is_scalar s then do cs <- scalars_of bs; Some (s :: cs) else None
  | _ => None
  end.
Definition string_utf8_from_unicode_scalars (bs : list Z) : option value :=
  do cs <- scalars_of bs;
  if Z.of_nat (length cs) <=? max_value_size then Some (CUtf8 cs) else None.

Definition is_contract_name (s : list Z) : bool :=
  (if list_eq_dec Z.eq_dec s transient then true else
   match s with c :: r => is_letter c && forallb is_name_char r | [] => false end) &&
  (Z.of_nat (length s) <=? 128).
(** StandardPrincipalData::new *)
Definition standard_principal (v : Z) (h : list Z) : option (Z * list Z) :=
  if v <? 32 then Some (v, h) else None.

(** ** Reading: wasm_utils.rs 367-602 *)

(** wasm_utils.rs 604-618 [read_indirect_offset_and_length] *)
Definition read_indirect_offset_and_length (m : mem) (off : Z) : option (Z * Z) :=
  do a <- hread m off 4;
  do b <- hread m (off + 4) 4;
  Some (i32_of a, i32_of b).

(** wasm_utils.rs 428-489: principals, callables *)
Definition read_principal (m : mem) (t : ty) (off : Z) : option value :=
  do v <- hread m off 1;
  do h <- hread m (off + 1) 20;
  do vh <- standard_principal (nth 0 v 0) h;
  do l <- hread m (off + 21) 1;
  let n := nth 0 l 0 in
  if n =? 0 then Some (CPrin (PStd (fst vh) (snd vh)))
  else
    do nm <- hread m (off + 22) n;
    if is_contract_name nm then
      match t with
      | TTrait i => Some (CCallable (PCon (fst vh) (snd vh) nm) i)
      | _ => Some (CPrin (PCon (fst vh) (snd vh) nm))
      end
    else None.

(** [read_from_wasm] 367-602, with [read_from_wasm_indirect] 349-365 inlined at
    the recursive calls (its definition follows).  The element loop of a list,
    [while current_offset < end], is given fuel [length]; each turn advances by
    at least one byte since every type has a positive size. *)
Fixpoint read_from_wasm (m : mem) (t : ty) (off len : Z) {struct t} : option value :=
  let indirect (t' : ty) (off' : Z) : option value :=
    if is_in_memory_type t' then
      do ol <- read_indirect_offset_and_length m off';
      read_from_wasm m t' (fst ol) (snd ol)
    else read_from_wasm m t' off' (get_type_size t') in
  match t with
  | TUInt =>
      do lo <- hread m off 8;
      do hi <- hread m (off + 8) 8;
      Some (CUInt (u64_of hi * 2 ^ 64 + u64_of lo))
  | TInt =>
      do lo <- hread m off 8;
      do hi <- hread m (off + 8) 8;
      Some (CInt (as_signed (u64_of hi * 2 ^ 64 + u64_of lo)))
  | TAscii _ => do bs <- hread m off len; string_ascii_from_bytes bs
  | TUtf8 _ => do bs <- hread m off len; string_utf8_from_unicode_scalars bs
  | TPrin | TTrait _ => read_principal m t off
  | TBuff _ => do bs <- hread m off len; buff_from bs
  | TList _ t' =>
      (fix loop (fuel : nat) (cur : Z) : option value :=
         if cur <? off + len then
           match fuel with
           | O => None
           | S fuel =>
               do v <- (if is_in_memory_type t' then
                          do ol <- read_indirect_offset_and_length m cur;
                          read_from_wasm m t' (fst ol) (snd ol)
                        else read_from_wasm m t' cur (get_type_size t'));
               match loop fuel (cur + get_type_size t') with
               | Some (CList vs) => Some (CList (v :: vs))
               | _ => None
               end
           end
         else Some (CList [])) (Z.to_nat len) off
  | TBool => do bs <- hread m off 4; Some (CBool (negb (le_value bs =? 0)))
  | TTuple fs =>
      (fix go (fs : list (string * ty)) (cur : Z) : option value :=
         match fs with
         | [] => Some (CTuple [])
         | (k, t') :: fs =>
             do v <- (if is_in_memory_type t' then
                        do ol <- read_indirect_offset_and_length m cur;
                        read_from_wasm m t' (fst ol) (snd ol)
                      else read_from_wasm m t' cur (get_type_size t'));
             match go fs (cur + get_type_size t') with
             | Some (CTuple vs) => Some (CTuple ((k, v) :: vs))
             | _ => None
             end
         end) fs off
  | TResp t' e =>
      do bs <- hread m off 4;
      if i32_of bs =? 0 then do v <- indirect e (off + 4 + get_type_size t'); Some (CErr v)
      else if i32_of bs =? 1 then do v <- indirect t' (off + 4); Some (COk v)
      else None
  | TOpt t' =>
      do bs <- hread m off 4;
      if i32_of bs =? 0 then Some CNone
      else if i32_of bs =? 1 then do v <- indirect t' (off + 4); Some (CSome v)
      else None
  | TNo => None
  end.

(** wasm_utils.rs 349-365 *)
Definition read_from_wasm_indirect (m : mem) (t : ty) (off : Z) : option value :=
  if is_in_memory_type t then
    do ol <- read_indirect_offset_and_length m off;
    read_from_wasm m t (fst ol) (snd ol)
  else read_from_wasm m t off (get_type_size t).

(** ** Writing: wasm_utils.rs 738-1090 *)

Definition u64_bytes (z : Z) : list Z := le_bytes 8 z.
Definition i32_bytes (z : Z) : list Z := le_bytes 4 z.

(** the two words of the representation of an in-memory value, 803-812 *)
Definition write_repr (m : mem) (off ioff n : Z) (repr : bool) : option (mem * Z) :=
  if repr then
    do m1 <- hwrite m off (i32_bytes ioff);
    do m2 <- hwrite m1 (off + 4) (i32_bytes n);
    Some (m2, 8)
  else Some (m, 0).

(** principal bytes: version, hash, length of the name (0 for a standard principal), name; 988-1030 *)
Definition prin_mem (p : prin) : list Z :=
  match p with
  | PStd v h => v :: h ++ [0]
  | PCon v h n => v :: h ++ (Z.of_nat (length n) mod 256) :: n
  end.

(** [write_to_wasm]: new memory, bytes written at [off], bytes written at [ioff].
    The high word of an i128 is [(i >> 64) as u64] (floor division). *)
Fixpoint write_to_wasm (m : mem) (t : ty) (off ioff : Z) (v : value) (repr : bool) {struct t}
  : option (mem * Z * Z) :=
  match t, v with
  | TInt, CInt z | TUInt, CUInt z =>
      do m1 <- hwrite m off (u64_bytes z);
      do m2 <- hwrite m1 (off + 8) (u64_bytes (z / 2 ^ 64));
      Some (m2, 16, 0)
  | TBuff _, CBuff bs | TAscii _, CAscii bs =>
      do m1 <- hwrite m ioff bs;
      do m2w <- write_repr m1 off ioff (Z.of_nat (length bs)) repr;
      Some (fst m2w, snd m2w, Z.of_nat (length bs))
  | TUtf8 _, CUtf8 cs =>
      let bs := flat_map (be_bytes 4) cs in
      do m1 <- hwrite m ioff bs;
      do m2w <- write_repr m1 off ioff (Z.of_nat (length bs)) repr;
      Some (fst m2w, snd m2w, Z.of_nat (length bs))
  | TList _ t', CList vs =>
      do r <- (fix go (m : mem) (vs : list value) (vo io : Z) {struct vs} : option (mem * Z * Z) :=
                 match vs with
                 | [] => Some (m, 0, 0)
                 | v :: vs =>
                     match write_to_wasm m t' vo io v true with
                     | Some (m', w, iw) =>
                         match go m' vs (vo + w) (io + iw) with
                         | Some (m'', w', iw') => Some (m'', w + w', iw + iw')
                         | None => None
                         end
                     | None => None
                     end
                 end) m vs ioff (ioff + Z.of_nat (length vs) * get_type_size t');
      let '(m1, vw, viw) := r in
      do m2w <- write_repr m1 off ioff vw repr;
      Some (fst m2w, snd m2w, vw + viw)
  | TResp t' e, COk v =>
      do m1 <- hwrite m off (i32_bytes 1);
      match write_to_wasm m1 t' (off + 4) ioff v true with
      | Some (m2, w, iw) => Some (m2, 4 + w + get_type_size e, iw)
      | None => None
      end
  | TResp t' e, CErr v =>
      do m1 <- hwrite m off (i32_bytes 0);
      match write_to_wasm m1 e (off + (4 + get_type_size t')) ioff v true with
      | Some (m2, w, iw) => Some (m2, 4 + get_type_size t' + w, iw)
      | None => None
      end
  | TBool, CBool b => do m1 <- hwrite m off (le_bytes 4 (b2z b)); Some (m1, 4, 0)
  | TNo, _ => do m1 <- hwrite m off [0; 0; 0; 0]; Some (m1, 4, 0)
  | TOpt t', CSome v =>
      do m1 <- hwrite m off (i32_bytes 1);
      match write_to_wasm m1 t' (off + 4) ioff v true with
      | Some (m2, w, iw) => Some (m2, 4 + w, iw)
      | None => None
      end
  | TOpt t', CNone => do m1 <- hwrite m off (i32_bytes 0); Some (m1, 4 + get_type_size t', 0)
  | (TPrin | TTrait _), CPrin p =>
      do m1 <- hwrite m ioff (prin_mem p);
      do m2w <- write_repr m1 off ioff (Z.of_nat (length (prin_mem p))) repr;
      Some (fst m2w, snd m2w, Z.of_nat (length (prin_mem p)))
  | TTuple fs, CTuple vs =>
      (fix go (m : mem) (fs : list (string * ty)) (o io : Z) {struct fs} : option (mem * Z * Z) :=
         match fs with
         | [] => Some (m, 0, 0)
         | (k, t') :: fs =>
             match assoc k vs with
             | Some v =>
                 match write_to_wasm m t' o io v true with
                 | Some (m', w, iw) =>
                     match go m' fs (o + w) (io + iw) with
                     | Some (m'', w', iw') => Some (m'', w + w', iw + iw')
                     | None => None
                     end
                 | None => None
                 end
             | None => None
             end
         end) m fs off ioff
  | _, _ => None
  end.

(** ** Returned values: wasm_utils.rs 91-335 [wasm_to_clarity_value]

    [vals] is [buffer[value_index..]]; the second component is the number of
    Wasm values consumed.  [Some (None, n)] is the NoType placeholder. *)
Definition val32 (vs : list val) (i : nat) : option Z :=
  match nth_error vs i with Some (VI32 z) => Some (sgn32 z) | _ => None end.
Definition val64 (vs : list val) (i : nat) : option Z :=
  match nth_error vs i with Some (VI64 z) => Some (sgn64 z) | _ => None end.

Fixpoint wasm_to_clarity_value (m : mem) (t : ty) (vals : list val) {struct t} : option (option value * nat) :=
  match t with
  | TInt =>
      do lo <- val64 vals 0; do hi <- val64 vals 1;
      Some (Some (CInt (hi * 2 ^ 64 + lo mod 2 ^ 64)), 2%nat)
  | TUInt =>
      do lo <- val64 vals 0; do hi <- val64 vals 1;
      Some (Some (CUInt ((hi mod 2 ^ 64) * 2 ^ 64 + lo mod 2 ^ 64)), 2%nat)
  | TBool => do b <- val32 vals 0; Some (Some (CBool (negb (b =? 0))), 1%nat)
  | TOpt t' =>
      do b <- val32 vals 0;
      do v <- (if b =? 1 then
                 match wasm_to_clarity_value m t' (skipn 1 vals) with
                 | Some (Some v, _) => Some (CSome v)
                 | _ => None
                 end
               else Some CNone);
      Some (Some v, S (length (clar2wasm_ty t')))
  | TResp t' e =>
      let nok := length (clar2wasm_ty t') in
      do b <- val32 vals 0;
      do v <- (if b =? 1 then
                 match wasm_to_clarity_value m t' (skipn 1 vals) with
                 | Some (Some v, _) => Some (COk v)
                 | _ => None
                 end
               else
                 match wasm_to_clarity_value m e (skipn (1 + nok) vals) with
                 | Some (Some v, _) => Some (CErr v)
                 | _ => None
                 end);
      Some (Some v, (1 + nok + length (clar2wasm_ty e))%nat)
  | TAscii _ =>
      do o <- val32 vals 0; do l <- val32 vals 1;
      do bs <- hread m o l;
      do v <- string_ascii_from_bytes bs; Some (Some v, 2%nat)
  | TNo => Some (None, 1%nat)
  | TUtf8 _ =>
      do o <- val32 vals 0; do l <- val32 vals 1;
      do bs <- hread m o l;
      do v <- string_utf8_from_unicode_scalars bs; Some (Some v, 2%nat)
  | TBuff _ =>
      do o <- val32 vals 0; do l <- val32 vals 1;
      do bs <- hread m o l;
      do v <- buff_from bs; Some (Some v, 2%nat)
  | TList _ _ =>
      do o <- val32 vals 0; do l <- val32 vals 1;
      do v <- read_from_wasm m t o l; Some (Some v, 2%nat)
  | TPrin | TTrait _ =>
      do o <- val32 vals 0;
      do vh <- hread m o 21;
      do l <- hread m (o + 21) 1;
      do std <- standard_principal (nth 0 vh 0) (skipn 1 vh);
      let n := nth 0 l 0 in
      if n =? 0 then Some (Some (CPrin (PStd (fst std) (snd std))), 2%nat)
      else
        do nm <- hread m (o + 22) n;
        if is_contract_name nm then
          Some (Some (match t with
                      | TTrait i => CCallable (PCon (fst std) (snd std) nm) i
                      | _ => CPrin (PCon (fst std) (snd std) nm)
                      end), 2%nat)
        else None
  | TTuple fs =>
      do r <- (fix go (fs : list (string * ty)) (vals : list val) : option (list (string * value) * nat) :=
         match fs with
         | [] => Some ([], O)
         | (k, t') :: fs =>
             match wasm_to_clarity_value m t' vals with
             | Some (Some v, n) =>
                 match go fs (skipn n vals) with
                 | Some (vs, n') => Some ((k, v) :: vs, (n + n')%nat)
                 | None => None
                 end
             | _ => None
             end
         end) fs vals;
      Some (Some (CTuple (fst r)), snd r)
  end.

(** ** Arguments: wasm_utils.rs 1360-1580 [pass_argument_to_wasm]

    Returns the Wasm values, the new memory and the two advanced offsets.  An
    i32/i64 argument is its canonical (unsigned) word. *)
Definition w32 (z : Z) : val := VI32 (z mod m32).
Definition w64 (z : Z) : val := VI64 (z mod m64).

Fixpoint pass_argument_to_wasm (m : mem) (t : ty) (v : value) (off ioff : Z) {struct v}
  : option (list val * mem * Z * Z) :=
  match v with
  | CUInt n | CInt n => Some ([w64 n; w64 (n / 2 ^ 64)], m, off, ioff)
  | CBool b => Some ([VI32 (b2z b)], m, off, ioff)
  | CNone =>
      match t with
      | TOpt _ => Some (map zero_of (clar2wasm_ty t), m, off, ioff)
      | _ => None
      end
  | CSome v =>
      match t with
      | TOpt t' =>
          match pass_argument_to_wasm m t' v off ioff with
          | Some (ws, m', o, io) => Some (VI32 1 :: ws, m', o, io)
          | None => None
          end
      | _ => None
      end
  | COk v =>
      match t with
      | TResp t' e =>
          match pass_argument_to_wasm m t' v off ioff with
          | Some (ws, m', o, io) => Some (VI32 1 :: ws ++ map zero_of (clar2wasm_ty e), m', o, io)
          | None => None
          end
      | _ => None
      end
  | CErr v =>
      match t with
      | TResp t' e =>
          match pass_argument_to_wasm m e v off ioff with
          | Some (ws, m', o, io) => Some (VI32 0 :: map zero_of (clar2wasm_ty t') ++ ws, m', o, io)
          | None => None
          end
      | _ => None
      end
  | CAscii bs | CBuff bs =>
      do m' <- hwrite m ioff bs;
      Some ([w32 ioff; w32 (Z.of_nat (length bs))], m', off, ioff + Z.of_nat (length bs))
  | CUtf8 cs =>
      let bs := flat_map (be_bytes 4) cs in
      do m' <- hwrite m ioff bs;
      Some ([w32 ioff; w32 (Z.of_nat (length bs))], m', off, ioff + Z.of_nat (length bs))
  | CList vs =>
      match t with
      | TList _ t' =>
          do r <- (fix go (m : mem) (vs : list value) (o io : Z) {struct vs} : option (mem * Z * Z) :=
                 match vs with
                 | [] => Some (m, 0, 0)
                 | v :: vs =>
                     match write_to_wasm m t' o io v true with
                     | Some (m', w, iw) =>
                         match go m' vs (o + w) (io + iw) with
                         | Some (m'', w', iw') => Some (m'', w + w', iw + iw')
                         | None => None
                         end
                     | None => None
                     end
                 end) m vs off ioff;
          let '(m', w, iw) := r in
          Some ([w32 off; w32 w], m', off + w, ioff + iw)
      | _ => None
      end
  | CPrin p | CCallable p _ =>
      do m' <- hwrite m ioff (prin_mem p);
      Some ([w32 ioff; w32 (Z.of_nat (length (prin_mem p)))], m', off, ioff + Z.of_nat (length (prin_mem p)))
  | CTuple vs =>
      match t with
      | TTuple fs =>
          (** the code walks the type's fields and looks each value up by name; the
              model walks the value's fields in the same (key) order and checks the name *)
          (fix go (m : mem) (fs : list (string * ty)) (vs : list (string * value)) (o io : Z) {struct vs}
             : option (list val * mem * Z * Z) :=
             match fs, vs with
             | [], _ => Some ([], m, o, io)
             | (k, t') :: fs, (k', v) :: vs =>
                 if String.eqb k k' then
                   match pass_argument_to_wasm m t' v o io with
                   | Some (ws, m', o', io') =>
                       match go m' fs vs o' io' with
                       | Some (ws', m'', o'', io'') => Some (ws ++ ws', m'', o'', io'')
                       | None => None
                       end
                   | None => None
                   end
                 else None
             | _, _ => None
             end) m fs vs off ioff
      | _ => None
      end
  end.

(** wasm_utils.rs 1586-1635 [reserve_space_for_return]: result slots and the advanced offset *)
Fixpoint reserve_space_for_return (off : Z) (t : ty) {struct t} : list val * Z :=
  match t with
  | TInt | TUInt => ([VI64 0; VI64 0], off)
  | TBool | TNo => ([VI32 0], off)
  | TOpt t' => let '(vs, o) := reserve_space_for_return off t' in (VI32 0 :: vs, o)
  | TResp t' e =>
      let '(vs, o) := reserve_space_for_return off t' in
      let '(vs', o') := reserve_space_for_return o e in (VI32 0 :: vs ++ vs', o')
  | TBuff _ | TAscii _ | TUtf8 _ | TList _ _ | TPrin | TTrait _ =>
      ([VI32 0; VI32 0], off + get_type_in_memory_size t false)
  | TTuple fs =>
      (fix go (fs : list (string * ty)) (off : Z) : list val * Z :=
         match fs with
         | [] => ([], off)
         | (_, t') :: fs =>
             let '(vs, o) := reserve_space_for_return off t' in
             let '(vs', o') := go fs o in (vs ++ vs', o')
         end) fs off
  end.

(** ** The host's side of a call: wasm_utils.rs 1245-1355 [call_function]

    Argument passing only: [sp] is the stack pointer; the result is the Wasm
    arguments, the memory, and the stack pointer the function starts with. *)
Fixpoint pass_args (m : mem) (ts : list ty) (vs : list value) (off ioff : Z) : option (list val * mem * Z * Z) :=
  match ts, vs with
  | t :: ts, v :: vs =>
      match pass_argument_to_wasm m t v off ioff with
      | Some (ws, m', o, io) =>
          match pass_args m' ts vs o io with
          | Some (ws', m'', o', io') => Some (ws ++ ws', m'', o', io')
          | None => None
          end
      | None => None
      end
  | _, _ => Some ([], m, off, ioff)
  end.

Definition args_repr_size (ts : list ty) : Z :=
  fold_right (fun t n => get_type_in_memory_size t false + n) 0 ts.

Definition call_setup (m : mem) (sp : Z) (ts : list ty) (vs : list value) (rt : ty) : option (list val * mem * Z) :=
  match pass_args m ts vs sp (sp + args_repr_size ts) with
  | Some (ws, m', _, io) => Some (ws, m', snd (reserve_space_for_return io rt))
  | None => None
  end.
