(** * What the words served by the host do: an independent specification

    [ledger_op] says, over the contract's tables ([db], Ledger.v), what [var-get],
    [var-set], [map-get?], [map-set], [map-insert], [map-delete], the [ft-*] words,
    [tx-sender] and [contract-caller] yield and what they change.  It is written
    against the Clarity reference, not against linker.rs.  [None]: nothing is said
    (inside [at-block]; a word compiled for other types than the declared ones; a
    table holding a value that is not of its declared type).  [Abort err_host]: the
    transaction is aborted without a runtime error code.  [ledger_open] and
    [ledger_close] say what happens around a call to a public or read-only function
    and around [as-contract]. *)
From Coq Require Import ZArith String List Bool Lia.
Import ListNotations.
From Verif Require Import Wasm SpecBytes SpecUtf8 Clar Ledger Ast SpecLang.
Open Scope Z_scope.

Fixpoint ty_eq_dec (a b : ty) {struct a} : {a = b} + {a <> b}.
Proof.
  assert (LF : forall l l' : list (string * ty), {l = l'} + {l <> l'}).
  { apply list_eq_dec. intros [k v] [k' v']. destruct (string_dec k k'); [|right; congruence]. destruct (ty_eq_dec v v'); [left; congruence|right; congruence]. }
  decide equality; try apply Z.eq_dec; apply (list_eq_dec Z.eq_dec).
Defined.

(** ** Membership in a type is decidable *)
Definition zrange (a x b : Z) : {a <= x < b} + {~ a <= x < b}.
Proof. destruct (Z_le_dec a x); [|right; lia]. destruct (Z_lt_dec x b); [left; lia|right; lia]. Defined.
Definition and_dec {A B : Prop} (a : {A} + {~ A}) (b : {B} + {~ B}) : {A /\ B} + {~ (A /\ B)}.
Proof. destruct a; [|right; tauto]. destruct b; [left; tauto|right; tauto]. Defined.
Definition or_dec {A B : Prop} (a : {A} + {~ A}) (b : {B} + {~ B}) : {A \/ B} + {~ (A \/ B)}.
Proof. destruct a; [left; tauto|]. destruct b; [left; tauto|right; tauto]. Defined.
Definition contract_name_dec s : {contract_name s} + {~ contract_name s}.
Proof.
  apply or_dec; [apply (list_eq_dec Z.eq_dec)|]. destruct s as [|c r]; [right; intros (c & r & H & _); discriminate|].
  destruct (is_letter c) eqn:E1; [|right; intros (c' & r' & H & H1 & _); congruence].
  destruct (forallb is_name_char r) eqn:E2; [left; exists c, r; auto|right; intros (c' & r' & H & _ & H1); congruence].
Defined.
Definition std_dec v h : {prin_std_ok v h} + {~ prin_std_ok v h}.
Proof. apply and_dec; [apply zrange|]. apply and_dec; [apply Nat.eq_dec|]. apply Forall_dec. intros b. apply zrange. Defined.
Definition prin_dec p : {prin_ok p} + {~ prin_ok p}.
Proof. destruct p; cbn [prin_ok]; [apply std_dec|]. apply and_dec; [apply std_dec|]. apply and_dec; [apply contract_name_dec|]. apply le_dec. Defined.
Definition ascii_dec c : {clarity_ascii c} + {~ clarity_ascii c}.
Proof. unfold clarity_ascii. destruct (zrange 32 c 127); [left; lia|]. destruct (or_dec (Z.eq_dec c 9) (or_dec (Z.eq_dec c 10) (or_dec (Z.eq_dec c 12) (Z.eq_dec c 13)))); [left; lia|right; lia]. Defined.
Definition scalar_dec c : {scalar c} + {~ scalar c}.
Proof. apply or_dec; apply zrange. Defined.
Fixpoint has_type_dec (t : ty) (v : value) {struct t} : {has_type t v} + {~ has_type t v}.
Proof.
  destruct t; destruct v; cbn [has_type]; try (right; intros H; exact H).
  - apply zrange.
  - apply zrange.
  - left. exact I.
  - apply prin_dec.
  - apply and_dec; [apply (list_eq_dec Z.eq_dec)|]. apply and_dec; [apply prin_dec|]. destruct p; [right; intros (? & ? & ? & H); discriminate|left; eauto].
  - apply and_dec; [apply Z_le_dec|]. apply Forall_dec. intros b. apply zrange.
  - apply and_dec; [apply Z_le_dec|]. apply Forall_dec, ascii_dec.
  - apply and_dec; [apply Z_le_dec|]. apply Forall_dec, scalar_dec.
  - apply and_dec; [apply Z_le_dec|]. apply Forall_dec. apply has_type_dec.
  - left. exact I.
  - apply has_type_dec.
  - apply has_type_dec.
  - apply has_type_dec.
  - revert fs0. induction fs as [|[k t] fs IH]; intros [|[k' v] vs]; [left; exact I|right; intros H; exact H|right; intros H; exact H|].
    apply and_dec; [apply string_dec|]. apply and_dec; [apply has_type_dec|apply IH].
Defined.

(** ** The words *)
Definition refuse {A} : option (res gctx A) := Some (Abort err_host).
(** spend [cost] of the memory budget; without budget the transaction is aborted *)
Definition spending (cost : Z) (v : value) (d : db) (g : gctx) : option (res gctx value) :=
  if cost <=? g_memory g then Some (Done v (g_with_memory (g_with_db g d) (g_memory g - cost))) else refuse.
Definition u_ok (n : Z) : bool := (0 <=? n) && (n <? 2 ^ 128).
Definition is_some {A} (o : option A) : bool := match o with Some _ => true | None => false end.
Definition ok_bool : value := COk (CBool true).
Definition err_uint (c : Z) : value := CErr (CUInt c).

(** tables after a mint, a burn, a transfer *)
Definition after_mint (d : db) (n : name) (p : prin) (a s : Z) : db :=
  add_event (set_bal (set_supply d n (s + a)) n p (d_bal d n p + a)) (EvFtMint n p a).
Definition after_burn (d : db) (n : name) (p : prin) (a s : Z) : db :=
  add_event (set_bal (set_supply d n (s - a)) n p (d_bal d n p - a)) (EvFtBurn n p a).
Definition after_transfer (d : db) (n : name) (p q : prin) (a : Z) : db :=
  add_event (set_bal (set_bal d n p (d_bal d n p - a)) n q (d_bal d n q + a)) (EvFtTransfer n p q a).

(** [tx-sender] and [contract-caller] *)
Definition ledger_who (o : option prin) (g : gctx) : option (res gctx value) :=
  match o with
  | Some p => if has_type_dec TPrin (CPrin p) then Some (Done (CPrin p) g) else None
  | None => refuse
  end.
Definition ledger_word (w : prim) (vs : list value) (g : gctx) : option (res gctx value) :=
  let d := g_db g in
  let n := prim_name w in
  if is_some (g_view g) then None
  else if negb (is_clarity_name n) then refuse
  else
  match w, vs with
  | PVarGet _ _ t, [] =>
      match g_vars g n, d_var d n with
      | Some t', Some v => if ty_eq_dec t t' then if has_type_dec t v then Some (Done v g) else None else None
      | _, _ => refuse
      end
  | PVarSet _ _ t, [v] =>
      match g_vars g n with
      | Some t' => if ty_eq_dec t t' then Some (Done (CBool true) (g_with_db g (set_var d n v))) else None
      | None => refuse
      end
  | PMapGet _ _ kt vt, [k] =>
      match g_maps g n with
      | Some (kt', vt') =>
          if ty_eq_dec kt kt' then if ty_eq_dec vt vt' then
            match d_map d n k with
            | None => Some (Done CNone g)
            | Some v => if has_type_dec vt v then Some (Done (CSome v) g) else None
            end else None else None
      | None => refuse
      end
  | PMapSet _ _ kt vt, [k; v] =>
      if is_read_only g then refuse else
      match g_maps g n with
      | Some (kt', vt') =>
          if ty_eq_dec kt kt' then if ty_eq_dec vt vt' then
            spending (ser_size k + ser_size v) (CBool true) (set_map d n k (Some v)) g else None else None
      | None => refuse
      end
  | PMapInsert _ _ kt vt, [k; v] =>
      if is_read_only g then refuse else
      match g_maps g n with
      | Some (kt', vt') =>
          if ty_eq_dec kt kt' then if ty_eq_dec vt vt' then
            match d_map d n k with
            | None => spending (ser_size k + ser_size v) (CBool true) (set_map d n k (Some v)) g
            | Some _ => spending (ser_size k + ser_size v) (CBool false) d g
            end else None else None
      | None => refuse
      end
  | PMapDelete _ _ kt vt, [k] =>
      if is_read_only g then refuse else
      match g_maps g n with
      | Some (kt', vt') =>
          if ty_eq_dec kt kt' then
            match d_map d n k with
            | Some _ => spending (ser_size k) (CBool true) (set_map d n k None) g
            | None => spending (ser_size k) (CBool false) d g
            end else None
      | None => refuse
      end
  | PFtSupply _ _, [] =>
      match d_supply d n with Some s => if u_ok s then Some (Done (CUInt s) g) else None | None => refuse end
  | PFtBalance _ _, [CPrin p] =>
      match g_ft g n, d_supply d n with
      | Some _, Some _ => if u_ok (d_bal d n p) then Some (Done (CUInt (d_bal d n p)) g) else None
      | _, _ => refuse
      end
  | PFtMint _ _, [CUInt a; CPrin p] =>
      if a =? 0 then Some (Done (err_uint 1) g) else
      match g_ft g n, d_supply d n with
      | Some cap, Some s =>
          if (s + a <? 2 ^ 128) && (match cap with Some c => s + a <=? c | None => true end) && (d_bal d n p + a <? 2 ^ 128)
          then spending (148 + 16) ok_bool (after_mint d n p a s) g else refuse
      | _, _ => refuse
      end
  | PFtBurn _ _, [CUInt a; CPrin p] =>
      if a =? 0 then Some (Done (err_uint 1) g) else
      match d_supply d n with
      | Some s =>
          if d_bal d n p <? a then Some (Done (err_uint 1) g)
          else if a <=? s then spending (148 + 16) ok_bool (after_burn d n p a s) g else refuse
      | None => refuse
      end
  | PFtTransfer _ _, [CUInt a; CPrin p; CPrin q] =>
      if a =? 0 then Some (Done (err_uint 3) g)
      else if prin_eq_dec p q then Some (Done (err_uint 2) g)
      else
      match g_ft g n, d_supply d n with
      | Some _, Some _ =>
          if d_bal d n p <? a then Some (Done (err_uint 1) g)
          else if d_bal d n q + a <? 2 ^ 128 then spending (2 * 148 + 2 * 16) ok_bool (after_transfer d n p q a) g else refuse
      | _, _ => refuse
      end
  | _, _ => None
  end.
Definition ledger_op (w : prim) (vs : list value) (g : gctx) : option (res gctx value) :=
  match w, vs with
  | PTxSender, [] => ledger_who (g_sender g) g
  | PContractCaller, [] => ledger_who (g_caller g) g
  | _, _ => ledger_word w vs g
  end.

(** ** Calls and [as-contract] *)
(** A call to a public or read-only function remembers the tables.  Inside a read-only
    call, and in whatever is called from there, nothing may be written. *)
Definition ledger_open (s : scope) (g : gctx) : option gctx :=
  match s with
  | SPublic => Some (g_with_tx g (g_db g) (g_db g :: g_layers g) (is_read_only g :: g_ro g))
  | SReadOnly => Some (g_with_tx g (g_db g) (g_db g :: g_layers g) (true :: g_ro g))
  | SContract => Some (push_caller (g_self g) (push_sender (g_self g) g))
  end.
(** A public call that yields [ok] keeps the new tables; every other call brings the
    remembered ones back.  [as-contract] brings the previous sender and caller back. *)
Definition ledger_close (s : scope) (keep : bool) (g : gctx) : option gctx :=
  match s with
  | SPublic | SReadOnly =>
      match g_layers g with
      | old :: ls => Some (g_with_tx g (match s with SPublic => if keep then g_db g else old | _ => old end) ls (tl (g_ro g)))
      | [] => None
      end
  | SContract =>
      match g_sender g, g_caller g with
      | Some _, Some _ => Some (g_with_caller (g_with_sender g (hd_error (g_senders g)) (tl (g_senders g))) (hd_error (g_callers g)) (tl (g_callers g)))
      | _, _ => None
      end
  end.
(** the host reads and writes memory through 32-bit signed offsets *)
#[export] Instance ledger_chain : chain gctx := mkchain gctx ledger_op (2 ^ 31 - 1) ledger_open ledger_close.
