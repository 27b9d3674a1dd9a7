(** * STX: an independent specification

    What the STX words do to what principals hold, in terms of holdings only; [Stx.v]'s
    state is used just as the record that stores them. *)
From Coq Require Import ZArith String List Bool Lia.
Import ListNotations.
From Verif Require Import Clar Ledger Stx.
Open Scope Z_scope.

(** everything a principal holds *)
Definition holds_stx (x : sctx) (p : prin) : Z := a_free (x_acct x p) + a_lock (x_acct x p).
(** a lock ends at its height, locks of the older versions also at a height for all *)
Definition lock_ended (x : sctx) (a : acct) : Prop :=
  a_until a <= x_height x \/
  match a_pox a with 0%nat => True | 1%nat => x_v1 x <= x_height x | 2%nat => x_v2 x <= x_height x | 3%nat => x_v3 x <= x_height x | _ => False end.
(** [n] is what [p] can spend; the rest is still locked *)
Definition spendable (x : sctx) (p : prin) (n : Z) : Prop :=
  let a := x_acct x p in (lock_ended x a -> n = a_free a + a_lock a) /\ (~ lock_ended x a -> n = a_free a).
(** [h] is the height at which the lock of [p] ends *)
Definition ends_at (x : sctx) (p : prin) (h : Z) : Prop :=
  let a := x_acct x p in h <= a_until a /\
  match a_pox a with 0%nat => False | 1%nat => h = a_until a \/ h = x_v1 x | 2%nat => h = a_until a \/ h = x_v2 x | 3%nat => h = a_until a \/ h = x_v3 x | _ => h = a_until a end /\
  x_height x < h.

(** the holders, and what all of them hold together *)
Definition covers (x : sctx) (ps : list prin) : Prop := NoDup ps /\ forall p, ~ In p ps -> holds_stx x p = 0.
Definition all_stx (x : sctx) (ps : list prin) : Z := fold_right (fun p n => holds_stx x p + n) 0 ps.
(** a state the chain can be in: no negative amounts, and together no more than the
    liquid supply, which is below 2^128 *)
Record stx_ok (x : sctx) : Prop := {
  so_acct : forall p, 0 <= a_free (x_acct x p) /\ 0 <= a_lock (x_acct x p) /\ (a_pox (x_acct x p) = 0%nat -> a_lock (x_acct x p) = 0) /\ 0 <= a_until (x_acct x p) < 2 ^ 64;
  so_heights : 0 <= x_v1 x < 2 ^ 32 /\ 0 <= x_v2 x < 2 ^ 32 /\ 0 <= x_v3 x < 2 ^ 32;
  so_all : exists ps, covers x ps /\ all_stx x ps <= x_liquid x < 2 ^ 128 }.

(** what an event does to what [p] holds *)
Definition delta (e : stx_event) (p : prin) : Z :=
  match e with
  | EvBurn q n => if prin_eq_dec p q then - n else 0
  | EvSend q r n _ => (if prin_eq_dec p q then - n else 0) + (if prin_eq_dec p r then n else 0)
  end.
Definition payer (e : stx_event) : prin := match e with EvBurn q _ | EvSend q _ _ _ => q end.
Definition amount_of (e : stx_event) : Z := match e with EvBurn _ n | EvSend _ _ n _ => n end.
Definition burnt (e : stx_event) : Z := match e with EvBurn _ n => n | _ => 0 end.
Definition sum (f : stx_event -> Z) (es : list stx_event) : Z := fold_right (fun e n => f e + n) 0 es.

(** Event [e], and nothing else, has happened between [x] and [x'].  (The memory budget may
    have been spent.) *)
Record happened (x x' : sctx) (e : stx_event) : Prop := {
  ha_payer : x_sender x = Some (payer e) /\ 0 < amount_of e;
  ha_events : x_events x' = e :: x_events x;
  ha_hold : forall p, holds_stx x' p = holds_stx x p + delta e p;
  (** amounts still locked stay locked; what moves is spendable *)
  ha_spend : forall p n, spendable x p n -> spendable x' p (n + delta e p);
  ha_liquid : x_liquid x' = x_liquid x - burnt e;
  ha_sent : forall p, x_sent x' p = x_sent x p + match e with EvSend q _ n _ => if prin_eq_dec p q then n else 0 | _ => 0 end;
  ha_burned : forall p, x_burned x' p = x_burned x p + match e with EvBurn q n => if prin_eq_dec p q then n else 0 | _ => 0 end;
  ha_rest : x_sender x' = x_sender x /\ x_height x' = x_height x /\ x_v1 x' = x_v1 x /\ x_v2 x' = x_v2 x /\ x_v3 x' = x_v3 x }.
(** nothing has happened (the memory budget may have been spent) *)
Definition nothing (x x' : sctx) : Prop := exists m, x' = x_with_memory x m.

(** [(stx-transfer? amt p q)] answers *)
Definition answers_transfer (x : sctx) (amt : Z) (p q : prin) (ans : value) : Prop :=
  (amt = 0 -> ans = CErr (CUInt 3)) /\
  (amt <> 0 -> p = q -> ans = CErr (CUInt 2)) /\
  (amt <> 0 -> p <> q -> x_sender x <> Some p -> ans = CErr (CUInt 4)) /\
  (amt <> 0 -> p <> q -> x_sender x = Some p -> forall n, spendable x p n -> (n < amt -> ans = CErr (CUInt 1)) /\ (amt <= n -> ans = COk (CBool true))).
(** [(stx-burn? amt p)] answers *)
Definition answers_burn (x : sctx) (amt : Z) (p : prin) (ans : value) : Prop :=
  (amt = 0 -> ans = CErr (CUInt 3)) /\
  (amt <> 0 -> x_sender x <> Some p -> ans = CErr (CUInt 4)) /\
  (amt <> 0 -> x_sender x = Some p -> forall n, spendable x p n -> (n < amt -> ans = CErr (CUInt 1)) /\ (amt <= n -> ans = COk (CBool true))).

(** What may happen to STX over time: the events above, and steps that touch no holding,
    burn nothing and announce nothing (a new block, a new sender, STX being locked, ..).
    Newest event first. *)
Inductive stx_history : sctx -> list stx_event -> sctx -> Prop :=
| sh_none x : stx_history x [] x
| sh_event x es y y' e : stx_history x es y -> happened y y' e -> stx_history x (e :: es) y'
| sh_other x es y y' : stx_history x es y ->
    (forall p, holds_stx y' p = holds_stx y p) -> x_liquid y' = x_liquid y -> x_events y' = x_events y -> stx_history x es y'.
