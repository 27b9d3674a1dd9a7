(** * [at-block]: an independent specification

    [(at-block h e)] evaluates [h] to a block hash, then [e] on the tables the contract
    had at that block, and then everything is as it was.  Written against the Clarity
    reference, not against linker.rs. *)
From Coq Require Import ZArith String List Bool Lia.
Import ListNotations.
From Verif Require Import Wasm Clar Ledger Ast SpecLang SpecChain.
Open Scope Z_scope.

(** the tables of the block being read *)
Definition past_tables (g : gctx) : option db := match g_view g with Some h => g_hist g h | None => None end.

(** What the words do there.  Map writes are refused.  [None]: nothing is said (the other
    words that write; a word compiled for other types than the declared ones; a table
    holding a value not of its declared type). *)
Definition past_word (w : prim) (vs : list value) (g : gctx) : option (res gctx value) :=
  let n := prim_name w in
  match past_tables g with
  | None => None
  | Some d =>
      match w, vs with
      | PVarGet _ _ t, [] =>
          if negb (is_clarity_name n) then refuse else
          match g_vars g n, d_var d n with
          | Some t', Some v => if ty_eq_dec t t' then if has_type_dec t v then Some (Done v g) else None else None
          | _, _ => refuse
          end
      | PMapGet _ _ kt vt, [k] =>
          if negb (is_clarity_name n) then refuse else
          match g_maps g n with
          | Some (kt', vt') =>
              if ty_eq_dec kt kt' then if ty_eq_dec vt vt' then
                match d_map d n k with
                | None => Some (Done CNone g)
                | Some v => if has_type_dec vt v then Some (Done (CSome v) g) else None
                end else None else None
          | None => refuse
          end
      | PMapSet _ _ _ _, [_; _] | PMapInsert _ _ _ _, [_; _] | PMapDelete _ _ _ _, [_] => if is_read_only g then refuse else None
      | PFtSupply _ _, [] =>
          if negb (is_clarity_name n) then refuse else
          match d_supply d n with Some s => if u_ok s then Some (Done (CUInt s) g) else None | None => refuse end
      | PFtBalance _ _, [CPrin p] =>
          if negb (is_clarity_name n) then refuse else
          match g_ft g n, d_supply d n with
          | Some _, Some _ => if u_ok (d_bal d n p) then Some (Done (CUInt (d_bal d n p)) g) else None
          | _, _ => refuse
          end
      | _, _ => None
      end
  end.
Definition past_op (w : prim) (vs : list value) (g : gctx) : option (res gctx value) :=
  match w, vs with
  | PTxSender, [] => ledger_who (g_sender g) g
  | PContractCaller, [] => ledger_who (g_caller g) g
  | _, _ => past_word w vs g
  end.
(** calls and [as-contract] are what they are elsewhere *)
Definition past_chain : chain gctx := mkchain gctx past_op (2 ^ 31 - 1) ledger_open ledger_close.

(** at block [h]: one unit of the memory budget is taken, nothing may be written *)
Definition in_past (h : list Z) (g : gctx) : gctx :=
  g_with_view (g_with_tx (g_with_memory g (g_memory g - 1)) (g_db g) (g_db g :: g_layers g) (true :: g_ro g)) (Some h) (g_view g :: g_bhh g).
(** back at the block that was being read before *)
Definition leave_past (g : gctx) : option gctx :=
  match g_bhh g, g_layers g with
  | v :: vs, d :: ls => Some (g_with_memory (g_with_tx (g_with_view g v vs) d ls (tl (g_ro g))) (g_memory g + 1))
  | _, _ => None
  end.
(** [restore]: when [e] leaves the function, the present is brought back all the same.
    That is what [at-block] means; without it, it is what the compiled code does. *)
Definition at_block (restore : bool) (mh me : gctx -> option (res gctx value)) (g : gctx) : option (res gctx value) :=
  match mh g with
  | Some (Done (CBuff h) g0) =>
      if negb (length h =? 32)%nat then refuse
      else if g_memory g0 <? 1 then refuse
      else
      match g_hist g0 h with
      | None => refuse
      | Some _ =>
          match me (in_past h g0) with
          | Some (Done v g2) => option_map (Done v) (leave_past g2)
          | Some (Early v g2) => if restore then option_map (Early v) (leave_past g2) else Some (Early v g2)
          | Some (Abort c) => Some (Abort c)
          | None => None
          end
      end
  | Some (Done _ _) => None
  | Some (Early v g') => Some (Early v g')
  | Some (Abort c) => Some (Abort c)
  | None => None
  end.

(** the state in which the tables are those of the block: what [e] should be evaluated in
    (savepoints also hold these tables, so that nothing of the present is left in it) *)
Definition as_of (d : db) (g : gctx) : gctx := g_with_view (g_with_tx g d (map (fun _ => d) (g_layers g)) (g_ro g)) None (g_bhh g).

(** a function [(define-private (f ps) (at-block hash body))] of a contract that also
    defines [ds] *)
Record at_fun := mkat { at_params : list (string * ty); at_ret : ty; at_hash : expr; at_body : expr }.
Definition run_at (strict restore : bool) (ds : list fundef) (a : at_fun) (vs : list value) (g : gctx) : option (res gctx value) :=
  let r := combine (map fst (at_params a)) vs in
  as_fun (at_block restore (eval (CH := ledger_chain) strict (run_defs (CH := ledger_chain) strict ds) (at_hash a) r)
    (eval (CH := past_chain) strict (run_defs (CH := past_chain) strict ds) (at_body a) r)) g.
