(** * Modules containing the standard library, and their initial store. *)
From Coq Require Import ZArith String List.
Import ListNotations.
From Verif Require Import Wasm Std.
Open Scope Z_scope.

Fixpoint assoc {A} (n : string) (l : list (string * A)) : option A :=
  match l with
  | [] => None
  | (k, v) :: l => if String.eqb k n then Some v else assoc n l
  end.

(** A compiled contract contains the standard library unchanged: compile.rs /
    wasm_generator.rs 255-300 parse standard.wat and add functions to that
    module; the function table is not extended. *)
Record has_std {HS} (E : env HS) : Prop := {
  std_fun : forall n f, assoc n std_funs = Some f -> efun E n = Some f;
  std_tbl : etable E = std_table }.

(** The standard library alone, with no host (for concrete runs). *)
Definition std_env {HS} : env HS :=
  mkenv (fun n => assoc n std_funs) (fun _ => None) std_table.

Lemma std_env_ok {HS} : has_std (@std_env HS).
Proof. split; auto. Qed.

(** initial memory contents: the data segments *)
Fixpoint seg_at (segs : list (Z * list Z)) (a : Z) : Z :=
  match segs with
  | [] => 0
  | (off, bs) :: segs =>
      if andb (off <=? a) (a <? off + Z.of_nat (length bs))
      then nth (Z.to_nat (a - off)) bs 0
      else seg_at segs a
  end.

Definition std_mem : mem := mkmem (seg_at std_data) (std_pages * 65536).

(** [write_bytes m a bs]: memory with [bs] written at [a] *)
Fixpoint write_bytes (m : mem) (a : Z) (bs : list Z) : mem :=
  match bs with
  | [] => m
  | b :: bs => write_bytes (upd m a b) (a + 1) bs
  end.

(** [bytes_at m a n]: the [n] bytes from address [a] *)
Fixpoint bytes_at (m : mem) (a : Z) (n : nat) : list Z :=
  match n with
  | O => []
  | S n => rd m a :: bytes_at m (a + 1) n
  end.

Definition std_store {HS} (h : HS) : store HS := mkstore std_mem std_globals h.

(** a store with blank memory, for concrete runs of functions that do not use memory *)
Definition blank_store : store unit := mkstore (mkmem (fun _ => 0) 65536) std_globals tt.
