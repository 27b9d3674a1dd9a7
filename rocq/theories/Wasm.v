(** * WebAssembly subset used by clarity-wasm: syntax and executable semantics.

    This file models the execution environment of the modules that
    /repo/clar2wasm/src/compile.rs produces and wasmtime runs.  It follows the
    WebAssembly core specification 2.0 (execution chapter) for exactly the
    instructions occurring in /repo/clar2wasm/src/standard/standard.wat
    (lines 1-4033) and emitted by /repo/clar2wasm/src/**/*.rs.

    Simplifications:
    - integers are represented by their canonical unsigned value in [Z];
      i32 in [0,2^32), i64 in [0,2^64), v128 in [0,2^128) (little-endian lanes);
    - no floats, tables are immutable, one memory, no memory.grow;
    - functions, globals and host imports are identified by their WAT names;
    - traps carry the store at the time of the trap, so that the
      [runtime-error-code] global is observable, as the host observes it
      (/repo/clar2wasm/src/error_mapping.rs 94-245);
    - code that WebAssembly validation would reject yields [OStuck];
    - execution is fuelled; every loop iteration and every call costs one unit.
      All theorems are stated for "all sufficiently large fuel". *)

From Coq Require Import ZArith String List Bool Lia.
Import ListNotations.
Open Scope Z_scope.

Notation m8 := 256 (only parsing).
Notation m16 := 65536 (only parsing).
Notation m32 := 4294967296 (only parsing).
Notation m64 := 18446744073709551616 (only parsing).
Notation m128 := 340282366920938463463374607431768211456 (only parsing).
Notation h32 := 2147483648 (only parsing).
Notation h64 := 9223372036854775808 (only parsing).
Notation h128 := 170141183460469231731687303715884105728 (only parsing).

(** ** Values and types *)

Inductive vt := T32 | T64 | T128.

Inductive val :=
| VI32 (z : Z)
| VI64 (z : Z)
| VV128 (z : Z).

Definition zero_of (t : vt) : val :=
  match t with T32 => VI32 0 | T64 => VI64 0 | T128 => VV128 0 end.

Definition vt_eqb (a b : vt) : bool :=
  match a, b with
  | T32, T32 | T64, T64 | T128, T128 => true
  | _, _ => false
  end.

Fixpoint vts_eqb (a b : list vt) : bool :=
  match a, b with
  | [], [] => true
  | x :: a, y :: b => vt_eqb x y && vts_eqb a b
  | _, _ => false
  end.

(** ** Instructions *)

Inductive binop :=
| Add | Sub | Mul | DivU | DivS | RemU | And | Or | Xor
| Shl | ShrU | ShrS | Rotl | Rotr.

Inductive relop :=
| Eq | Ne | LtU | LtS | GtU | GtS | LeU | LeS | GeU | GeS.

(** loads: 8/16/32/64 bits into an i32 or i64 (zero-extended), or a v128 *)
Inductive ldkind := L32 | L32_8u | L32_16u | L64 | L64_8u | L64_16u | L64_32u | LV128.
Inductive stkind := S32 | S32_8 | S32_16 | S64 | S64_8 | S64_32 | SV128.

Inductive instr :=
| Const (v : val)
| LGet (n : nat) | LSet (n : nat) | LTee (n : nat)
| GGet (g : string) | GSet (g : string)
| Drop | Select | Unreachable | Nop
| B32 (o : binop) | B64 (o : binop)
| R32 (o : relop) | R64 (o : relop)
| Eqz32 | Eqz64 | Clz64 | Clz32 | Wrap | ExtU
| Load (k : ldkind) (off : Z) | Store (k : stkind) (off : Z)
| MemCopy | MemFill | MemSize
| VAnd | VXor | VAnyTrue | VSwizzle | VExtract64 (lane : Z)
| Block (np nr : nat) (body : list instr)
| Loop (np nr : nat) (body : list instr)
| If (np nr : nat) (t e : list instr)
| Br (n : nat) | BrIf (n : nat) | BrTable (ns : list nat) (d : nat)
| Return
| Call (f : string)
| CallInd (ps rs : list vt).

Record func := mkfunc {
  fparams : list vt;
  flocals : list vt;
  fresults : list vt;
  fbody : list instr }.

(** ** Integer operations (WASM core spec, 4.3.2) *)

(** two's-complement reading of the canonical unsigned value *)
Definition sgn32 (z : Z) : Z := if z <? h32 then z else z - m32.
Definition sgn64 (z : Z) : Z := if z <? h64 then z else z - m64.

(** [w] is the width, [m = 2^w]; [None] is a trap (division only). *)
Definition ibin (w m : Z) (sg : Z -> Z) (o : binop) (a b : Z) : option Z :=
  match o with
  | Add => Some ((a + b) mod m)
  | Sub => Some ((a - b) mod m)
  | Mul => Some ((a * b) mod m)
  | DivU => if b =? 0 then None else Some (a / b)
  | DivS => if b =? 0 then None
            else if (sg a =? - (m / 2)) && (sg b =? -1) then None
            else Some ((Z.quot (sg a) (sg b)) mod m)
  | RemU => if b =? 0 then None else Some (a mod b)
  | And => Some (Z.land a b)
  | Or => Some (Z.lor a b)
  | Xor => Some (Z.lxor a b)
  | Shl => Some ((a * 2 ^ (b mod w)) mod m)
  | ShrU => Some (a / 2 ^ (b mod w))
  | ShrS => Some ((sg a / 2 ^ (b mod w)) mod m)
  | Rotl => Some (Z.lor ((a * 2 ^ (b mod w)) mod m) (a / 2 ^ (w - b mod w)))
  | Rotr => Some (Z.lor (a / 2 ^ (b mod w)) ((a * 2 ^ (w - b mod w)) mod m))
  end.

Definition irel (sg : Z -> Z) (o : relop) (a b : Z) : bool :=
  match o with
  | Eq => a =? b
  | Ne => negb (a =? b)
  | LtU => a <? b
  | LtS => sg a <? sg b
  | GtU => b <? a
  | GtS => sg b <? sg a
  | LeU => a <=? b
  | LeS => sg a <=? sg b
  | GeU => b <=? a
  | GeS => sg b <=? sg a
  end.

Definition b2z (b : bool) : Z := if b then 1 else 0.

Definition clz (w z : Z) : Z := if z =? 0 then w else w - 1 - Z.log2 z.

(** i8x16.swizzle: byte [i] of the result is byte [s_i] of [a], or 0 *)
Definition vbyte (a i : Z) : Z := (a / 2 ^ (8 * i)) mod 256.
Fixpoint vjoin (n : nat) (f : Z -> Z) (i : Z) : Z :=
  match n with
  | O => 0
  | S n => f i + 256 * vjoin n f (i + 1)
  end.
Definition swizzle (a s : Z) : Z :=
  vjoin 16 (fun i => if vbyte s i <? 16 then vbyte a (vbyte s i) else 0) 0.

(** ** Linear memory *)

Record mem := mkmem { mdata : Z -> Z; msize : Z }.

Definition rd (m : mem) (a : Z) : Z := mdata m a mod 256.

Fixpoint ldn (m : mem) (a : Z) (n : nat) : Z :=
  match n with
  | O => 0
  | S n => rd m a + 256 * ldn m (a + 1) n
  end.

Definition upd (m : mem) (a v : Z) : mem :=
  mkmem (fun x => if x =? a then v mod 256 else mdata m x) (msize m).

Fixpoint stn (m : mem) (a : Z) (n : nat) (v : Z) : mem :=
  match n with
  | O => m
  | S n => stn (upd m a v) (a + 1) n (v / 256)
  end.

Definition mcopy (m : mem) (d s n : Z) : mem :=
  mkmem (fun x => if (d <=? x) && (x <? d + n) then mdata m (x - d + s) else mdata m x) (msize m).

Definition mfill (m : mem) (d v n : Z) : mem :=
  mkmem (fun x => if (d <=? x) && (x <? d + n) then v mod 256 else mdata m x) (msize m).

Definition ldbytes (k : ldkind) : nat :=
  match k with
  | L32 => 4 | L32_8u => 1 | L32_16u => 2
  | L64 => 8 | L64_8u => 1 | L64_16u => 2 | L64_32u => 4
  | LV128 => 16
  end.

Definition ldval (k : ldkind) (z : Z) : val :=
  match k with
  | L32 | L32_8u | L32_16u => VI32 z
  | L64 | L64_8u | L64_16u | L64_32u => VI64 z
  | LV128 => VV128 z
  end.

Definition stbytes (k : stkind) : nat :=
  match k with
  | S32 => 4 | S32_8 => 1 | S32_16 => 2 | S64 => 8 | S64_8 => 1 | S64_32 => 4 | SV128 => 16
  end.

Definition stval (k : stkind) (v : val) : option Z :=
  match k, v with
  | (S32 | S32_8 | S32_16), VI32 z => Some z
  | (S64 | S64_8 | S64_32), VI64 z => Some z
  | SV128, VV128 z => Some z
  | _, _ => None
  end.

Definition load (m : mem) (a : Z) (n : nat) : option Z :=
  if a + Z.of_nat n <=? msize m then Some (ldn m a n) else None.

Definition store_ (m : mem) (a : Z) (n : nat) (v : Z) : option mem :=
  if a + Z.of_nat n <=? msize m then Some (stn m a n v) else None.

(** ** Stores, configurations, outcomes *)

Definition globals := list (string * val).

Fixpoint gget (g : globals) (n : string) : option val :=
  match g with
  | [] => None
  | (k, v) :: g => if String.eqb k n then Some v else gget g n
  end.

Fixpoint gset (g : globals) (n : string) (v : val) : globals :=
  match g with
  | [] => []
  | (k, w) :: g => if String.eqb k n then (k, v) :: g else (k, w) :: gset g n v
  end.

Record store (HS : Type) := mkstore { smem : mem; sglob : globals; shost : HS }.
Arguments mkstore {HS}. Arguments smem {HS}. Arguments sglob {HS}. Arguments shost {HS}.

Definition with_mem {HS} (s : store HS) (m : mem) : store HS :=
  mkstore m (sglob s) (shost s).
Definition with_glob {HS} (s : store HS) (g : globals) : store HS :=
  mkstore (smem s) g (shost s).

Record cfg (HS : Type) := mkcfg { clocals : list val; cstack : list val; cstore : store HS }.
Arguments mkcfg {HS}. Arguments clocals {HS}. Arguments cstack {HS}. Arguments cstore {HS}.

Inductive trapkind := TUnreachable | TMem | TDiv | TTable | THost.

Inductive outcome (HS : Type) :=
| ONormal (s : cfg HS)
| OBr (n : nat) (s : cfg HS)
| ORet (s : cfg HS)
| OTrap (k : trapkind) (st : store HS)
| OFuel
| OStuck.
Arguments ONormal {HS}. Arguments OBr {HS}. Arguments ORet {HS}.
Arguments OTrap {HS}. Arguments OFuel {HS}. Arguments OStuck {HS}.

(** result of a function invocation; values are listed first result first *)
Inductive result (HS : Type) :=
| RVals (vs : list val) (st : store HS)
| RTrap (k : trapkind) (st : store HS)
| RFuel
| RStuck.
Arguments RVals {HS}. Arguments RTrap {HS}. Arguments RFuel {HS}. Arguments RStuck {HS}.

(** A module instance: functions, host imports, table. *)
Record env (HS : Type) := mkenv {
  efun : string -> option func;
  ehost : string -> option (list vt * (list val -> store HS -> result HS));
  etable : list string }.
Arguments mkenv {HS}. Arguments efun {HS}. Arguments ehost {HS}. Arguments etable {HS}.

Fixpoint lset (l : list val) (n : nat) (v : val) : list val :=
  match l, n with
  | [], _ => []
  | _ :: l, O => v :: l
  | x :: l, S n => x :: lset l n v
  end.

(** ** Simple (non-control) instructions *)

Section Step.
Context {HS : Type}.
Notation cfg := (cfg HS).
Notation outcome := (outcome HS).

Definition setstk (s : cfg) (k : list val) : cfg := mkcfg (clocals s) k (cstore s).

Definition step (i : instr) (s : cfg) : outcome :=
  match i, cstack s with
  | Const v, k => ONormal (setstk s (v :: k))
  | LGet n, k =>
      match nth_error (clocals s) n with
      | Some v => ONormal (setstk s (v :: k))
      | None => OStuck
      end
  | LSet n, v :: k => ONormal (mkcfg (lset (clocals s) n v) k (cstore s))
  | LTee n, v :: k => ONormal (mkcfg (lset (clocals s) n v) (v :: k) (cstore s))
  | GGet g, k =>
      match gget (sglob (cstore s)) g with
      | Some v => ONormal (setstk s (v :: k))
      | None => OStuck
      end
  | GSet g, v :: k =>
      ONormal (mkcfg (clocals s) k (with_glob (cstore s) (gset (sglob (cstore s)) g v)))
  | Drop, _ :: k => ONormal (setstk s k)
  | Select, VI32 c :: VI32 b :: VI32 a :: k =>
      ONormal (setstk s (VI32 (if c =? 0 then b else a) :: k))
  | Select, VI32 c :: VI64 b :: VI64 a :: k =>
      ONormal (setstk s (VI64 (if c =? 0 then b else a) :: k))
  | Unreachable, _ => OTrap TUnreachable (cstore s)
  | Nop, _ => ONormal s
  | B32 o, VI32 b :: VI32 a :: k =>
      match ibin 32 m32 sgn32 o a b with
      | Some r => ONormal (setstk s (VI32 r :: k))
      | None => OTrap TDiv (cstore s)
      end
  | B64 o, VI64 b :: VI64 a :: k =>
      match ibin 64 m64 sgn64 o a b with
      | Some r => ONormal (setstk s (VI64 r :: k))
      | None => OTrap TDiv (cstore s)
      end
  | R32 o, VI32 b :: VI32 a :: k => ONormal (setstk s (VI32 (b2z (irel sgn32 o a b)) :: k))
  | R64 o, VI64 b :: VI64 a :: k => ONormal (setstk s (VI32 (b2z (irel sgn64 o a b)) :: k))
  | Eqz32, VI32 a :: k => ONormal (setstk s (VI32 (b2z (a =? 0)) :: k))
  | Eqz64, VI64 a :: k => ONormal (setstk s (VI32 (b2z (a =? 0)) :: k))
  | Clz64, VI64 a :: k => ONormal (setstk s (VI64 (clz 64 a) :: k))
  | Clz32, VI32 a :: k => ONormal (setstk s (VI32 (clz 32 a) :: k))
  | Wrap, VI64 a :: k => ONormal (setstk s (VI32 (a mod m32) :: k))
  | ExtU, VI32 a :: k => ONormal (setstk s (VI64 a :: k))
  | Load kd off, VI32 a :: k =>
      match load (smem (cstore s)) (a + off) (ldbytes kd) with
      | Some r => ONormal (setstk s (ldval kd r :: k))
      | None => OTrap TMem (cstore s)
      end
  | Store kd off, v :: VI32 a :: k =>
      match stval kd v with
      | Some z =>
          match store_ (smem (cstore s)) (a + off) (stbytes kd) z with
          | Some m' => ONormal (mkcfg (clocals s) k (with_mem (cstore s) m'))
          | None => OTrap TMem (cstore s)
          end
      | None => OStuck
      end
  | MemCopy, VI32 n :: VI32 src :: VI32 dst :: k =>
      if (src + n <=? msize (smem (cstore s))) && (dst + n <=? msize (smem (cstore s)))
      then ONormal (mkcfg (clocals s) k (with_mem (cstore s) (mcopy (smem (cstore s)) dst src n)))
      else OTrap TMem (cstore s)
  | MemFill, VI32 n :: VI32 v :: VI32 dst :: k =>
      if dst + n <=? msize (smem (cstore s))
      then ONormal (mkcfg (clocals s) k (with_mem (cstore s) (mfill (smem (cstore s)) dst v n)))
      else OTrap TMem (cstore s)
  | MemSize, k => ONormal (setstk s (VI32 (msize (smem (cstore s)) / 65536) :: k))
  | VAnd, VV128 b :: VV128 a :: k => ONormal (setstk s (VV128 (Z.land a b) :: k))
  | VXor, VV128 b :: VV128 a :: k => ONormal (setstk s (VV128 (Z.lxor a b) :: k))
  | VAnyTrue, VV128 a :: k => ONormal (setstk s (VI32 (b2z (negb (a =? 0))) :: k))
  | VSwizzle, VV128 b :: VV128 a :: k => ONormal (setstk s (VV128 (swizzle a b) :: k))
  | VExtract64 l, VV128 a :: k => ONormal (setstk s (VI64 ((a / 2 ^ (64 * l)) mod m64) :: k))
  | _, _ => OStuck
  end.

(** ** Control *)

Section RunList.
  Variable ex : instr -> cfg -> outcome.
  Fixpoint run_list (is : list instr) (s : cfg) {struct is} : outcome :=
    match is with
    | [] => ONormal s
    | i :: is =>
        match ex i s with
        | ONormal s' => run_list is s'
        | o => o
        end
    end.
End RunList.

(** leaving a block/if: [rest] is the operand stack below the block *)
Definition exit_block (nr : nat) (rest : list val) (o : outcome) : outcome :=
  match o with
  | ONormal s => ONormal (setstk s (cstack s ++ rest))
  | OBr O s => ONormal (setstk s (firstn nr (cstack s) ++ rest))
  | OBr (S n) s => OBr n s
  | o => o
  end.

(** leaving a function body *)
Definition exit_func (nr : nat) (o : outcome) : result HS :=
  match o with
  | ONormal s => RVals (rev (cstack s)) (cstore s)
  | OBr O s | ORet s => RVals (rev (firstn nr (cstack s))) (cstore s)
  | OBr (S _) _ => RStuck
  | OTrap k st => RTrap k st
  | OFuel => RFuel
  | OStuck => RStuck
  end.

(** back in the caller: [rest] is the operand stack below the arguments *)
Definition ret_call (ls : list val) (rest : list val) (r : result HS) : outcome :=
  match r with
  | RVals vs st => ONormal (mkcfg ls (rev vs ++ rest) st)
  | RTrap k st => OTrap k st
  | RFuel => OFuel
  | RStuck => OStuck
  end.

Variable E : env HS.

(** invoke [f] with arguments (first argument first) *)
Definition call_func (ex : instr -> cfg -> outcome) (f : string)
    (args : list val) (st : store HS) : result HS :=
  match efun E f with
  | Some fn =>
      exit_func (length (fresults fn))
        (run_list ex (fbody fn) (mkcfg (args ++ map zero_of (flocals fn)) [] st))
  | None =>
      match ehost E f with
      | Some (_, h) => h args st
      | None => RStuck
      end
  end.

Definition fun_arity (f : string) : option nat :=
  match efun E f with
  | Some fn => Some (length (fparams fn))
  | None =>
      match ehost E f with
      | Some (ps, _) => Some (length ps)
      | None => None
      end
  end.

Definition fun_types (f : string) : option (list vt * list vt) :=
  match efun E f with
  | Some fn => Some (fparams fn, fresults fn)
  | None => None
  end.

Fixpoint exec (fuel : nat) : instr -> cfg -> outcome :=
  fix ei (i : instr) (s : cfg) {struct i} : outcome :=
    match i with
    | Block np nr body =>
        exit_block nr (skipn np (cstack s))
          (run_list ei body (setstk s (firstn np (cstack s))))
    | If np nr t e =>
        match cstack s with
        | VI32 c :: k =>
            exit_block nr (skipn np k)
              (if c =? 0 then run_list ei e (setstk s (firstn np k))
               else run_list ei t (setstk s (firstn np k)))
        | _ => OStuck
        end
    | Loop np nr body =>
        match run_list ei body (setstk s (firstn np (cstack s))) with
        | ONormal s' => ONormal (setstk s' (cstack s' ++ skipn np (cstack s)))
        | OBr O s' =>
            match fuel with
            | O => OFuel
            | S f => exec f (Loop np nr body)
                       (setstk s' (firstn np (cstack s') ++ skipn np (cstack s)))
            end
        | OBr (S n) s' => OBr n s'
        | o => o
        end
    | Br n => OBr n s
    | BrIf n =>
        match cstack s with
        | VI32 c :: k => if c =? 0 then ONormal (setstk s k) else OBr n (setstk s k)
        | _ => OStuck
        end
    | BrTable ns d =>
        match cstack s with
        | VI32 c :: k =>
            OBr (if c <? Z.of_nat (length ns) then nth (Z.to_nat c) ns d else d) (setstk s k)
        | _ => OStuck
        end
    | Return => ORet s
    | Call f =>
        match fun_arity f, fuel with
        | Some n, S fu =>
            ret_call (clocals s) (skipn n (cstack s))
              (call_func (exec fu) f (rev (firstn n (cstack s))) (cstore s))
        | None, _ => OStuck
        | _, O => OFuel
        end
    | CallInd ps rs =>
        match cstack s with
        | VI32 c :: k =>
            match nth_error (etable E) (Z.to_nat c) with
            | None => OTrap TTable (cstore s)
            | Some f =>
                match fun_types f, fuel with
                | Some (ps', rs'), S fu =>
                    if vts_eqb ps ps' && vts_eqb rs rs' then
                      ret_call (clocals s) (skipn (length ps) k)
                        (call_func (exec fu) f (rev (firstn (length ps) k)) (cstore s))
                    else OTrap TTable (cstore s)
                | None, S fu =>
                    ret_call (clocals s) (skipn (length ps) k)
                      (call_func (exec fu) f (rev (firstn (length ps) k)) (cstore s))
                | _, O => OFuel
                end
            end
        | _ => OStuck
        end
    | i => step i s
    end.

Definition execs (fuel : nat) (is : list instr) (s : cfg) : outcome :=
  run_list (exec fuel) is s.

Definition invoke (fuel : nat) (f : string) (args : list val) (st : store HS) : result HS :=
  call_func (exec fuel) f args st.

(** [f] called on [args] in store [st] ends with result [r] (hence terminates) *)
Definition calls (f : string) (args : list val) (st : store HS) (r : result HS) : Prop :=
  exists f0, forall fuel, (f0 <= fuel)%nat -> invoke fuel f args st = r.

(** code [is] run in configuration [s] ends with outcome [o] *)
Definition runs (is : list instr) (s : cfg) (o : outcome) : Prop :=
  exists f0, forall fuel, (f0 <= fuel)%nat -> execs fuel is s = o.

End Step.
