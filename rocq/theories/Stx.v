(** * STX: [stx-get-balance], [stx-account], [stx-burn?], [stx-transfer?], [stx-transfer-memo?]

    linker.rs 1154-1518 and words/stx.rs, function by function.  The clarity crate is not in
    /repo; its STX balances ([STXBalance], [STXBalanceSnapshot]) are modelled as plain
    accounts:
    - an account holds an unlocked amount, a locked amount, the height at which the latter
      is unlocked, and the version of the lock; locks of versions 1 to 3 also end at a
      height kept in the database;
    - [get_available_balance] counts the locked amount as available once the lock has ended,
      [canonical_balance_repr] then shows it as unlocked, and [debit] moves it there;
    - [transfer_to] credits the recipient's unlocked amount, and fails above 2^128-1;
    - [decrement_ustx_liquid_supply] fails below 0; [log_stx_transfer] and [log_stx_burn]
      add to what the principal sent and burned in this transaction and fail above 2^128-1;
    - [add_memory] fails when the memory budget is exhausted.
    Savepoints and cost tracking are not modelled here. *)
From Coq Require Import ZArith String List Bool Lia.
Import ListNotations.
From Verif Require Import Wasm StdEnv Bytes Clar Codec Ledger.
Open Scope Z_scope.

Record acct := mkacct { a_free : Z; a_lock : Z; a_until : Z; a_pox : nat }.
Inductive stx_event :=
| EvBurn (from : prin) (amt : Z)
| EvSend (from to : prin) (amt : Z) (memo : list Z).
Record sctx := mkx {
  x_sender : option prin;
  x_memory : Z;                       (* memory budget *)
  x_acct : prin -> acct;
  x_liquid : Z;                       (* total liquid supply *)
  x_height : Z;                       (* current burn block height *)
  x_v1 : Z; x_v2 : Z; x_v3 : Z;       (* heights at which older locks end *)
  x_sent : prin -> Z; x_burned : prin -> Z;  (* this transaction, for post-conditions *)
  x_events : list stx_event }.        (* newest first *)

Definition x_with_memory (x : sctx) m := mkx (x_sender x) m (x_acct x) (x_liquid x) (x_height x) (x_v1 x) (x_v2 x) (x_v3 x) (x_sent x) (x_burned x) (x_events x).
Definition pupd {A} (f : prin -> A) (p : prin) (a : A) : prin -> A := fun q => if prin_eq_dec q p then a else f q.
Definition x_with_acct (x : sctx) p a := mkx (x_sender x) (x_memory x) (pupd (x_acct x) p a) (x_liquid x) (x_height x) (x_v1 x) (x_v2 x) (x_v3 x) (x_sent x) (x_burned x) (x_events x).
Definition x_with_liquid (x : sctx) l := mkx (x_sender x) (x_memory x) (x_acct x) l (x_height x) (x_v1 x) (x_v2 x) (x_v3 x) (x_sent x) (x_burned x) (x_events x).
Definition x_with_sent (x : sctx) p n := mkx (x_sender x) (x_memory x) (x_acct x) (x_liquid x) (x_height x) (x_v1 x) (x_v2 x) (x_v3 x) (pupd (x_sent x) p n) (x_burned x) (x_events x).
Definition x_with_burned (x : sctx) p n := mkx (x_sender x) (x_memory x) (x_acct x) (x_liquid x) (x_height x) (x_v1 x) (x_v2 x) (x_v3 x) (x_sent x) (pupd (x_burned x) p n) (x_events x).
Definition x_with_event (x : sctx) e := mkx (x_sender x) (x_memory x) (x_acct x) (x_liquid x) (x_height x) (x_v1 x) (x_v2 x) (x_v3 x) (x_sent x) (x_burned x) (e :: x_events x).

(** ** The clarity crate's accounts *)
(** STXBalance::effective_unlock_height *)
Definition unlock_height (x : sctx) (a : acct) : Z :=
  match a_pox a with
  | 0%nat => 0
  | 1%nat => Z.min (a_until a) (x_v1 x)
  | 2%nat => Z.min (a_until a) (x_v2 x)
  | 3%nat => Z.min (a_until a) (x_v3 x)
  | _ => a_until a
  end.
(** STXBalance::has_unlockable_tokens_at_burn_block *)
Definition unlockable (x : sctx) (a : acct) : bool :=
  match a_pox a with 0%nat => false | _ => negb (a_lock a =? 0) && (unlock_height x a <=? x_height x) end.
(** STXBalanceSnapshot::canonical_balance_repr *)
Definition canonical (x : sctx) (a : acct) : acct := if unlockable x a then mkacct (a_free a + a_lock a) 0 0 0 else a.
(** STXBalanceSnapshot::get_available_balance *)
Definition available (x : sctx) (a : acct) : Z := a_free (canonical x a).
(** STXBalanceSnapshot::debit (it fails when the amount is not unlocked) *)
Definition debit (x : sctx) (a : acct) (n : Z) : option acct :=
  let a := canonical x a in
  if n <=? a_free a then Some (mkacct (a_free a - n) (a_lock a) (a_until a) (a_pox a)) else None.
(** STXBalance::checked_add_unlocked_amount *)
Definition credit (a : acct) (n : Z) : option acct :=
  if a_free a + n <? 2 ^ 128 then Some (mkacct (a_free a + n) (a_lock a) (a_until a) (a_pox a)) else None.

(** ** Host functions *)
(** StxErrorCodes, from the clarity crate *)
Definition not_enough_balance : Z := 1.
Definition sender_is_recipient : Z := 2.
Definition non_positive_amount : Z := 3.
Definition sender_is_not_tx_sender : Z := 4.
Definition sz_acct : Z := 40.

Inductive sres := SOk (ws : list val) (x : sctx) | SErr (x : sctx).
Definition run_s (st : store sctx) (r : sres) : result sctx :=
  match r with
  | SOk ws x => RVals ws (mkstore (smem st) (sglob st) x)
  | SErr x => RTrap THost (mkstore (smem st) (sglob st) x)
  end.
Definition s_bind {A} (x : sctx) (o : option A) (k : A -> sres) : sres := match o with Some a => k a | None => SErr x end.
Definition charge (x : sctx) (n : Z) (k : sctx -> sres) : sres := if n <=? x_memory x then k (x_with_memory x (x_memory x - n)) else SErr x.
Definition u128_words (n : Z) : list val := [VI64 (n mod m64); VI64 (n / m64 mod m64)].

(** linker.rs 1184-1194 *)
Definition op_stx_balance (p : prin) (x : sctx) : sres := SOk (u128_words (available x (x_acct x p))) x.
(** linker.rs 1235-1280 *)
Definition op_stx_account (p : prin) (x : sctx) : sres :=
  let a := canonical x (x_acct x p) in
  SOk (u128_words (a_lock a) ++ [VI64 (unlock_height x a mod m64); VI64 0] ++ u128_words (a_free a)) x.
(** linker.rs 1321-1370 *)
Definition op_stx_burn (amt : Z) (p : prin) (x : sctx) : sres :=
  if amt =? 0 then SOk (err_code non_positive_amount) x
  else if negb (match x_sender x with Some q => if prin_eq_dec p q then true else false | None => false end) then SOk (err_code sender_is_not_tx_sender) x
  else
    charge x sz_prin (fun x => charge x sz_acct (fun x =>
    if negb (amt <=? available x (x_acct x p)) then SOk (err_code not_enough_balance) x
    else s_bind x (debit x (x_acct x p) amt) (fun a =>
      let x := x_with_acct x p a in
      if amt <=? x_liquid x then
        let x := x_with_liquid x (x_liquid x - amt) in
        if x_burned x p + amt <? 2 ^ 128 then SOk ok_true (x_with_event (x_with_burned x p (x_burned x p + amt)) (EvBurn p amt)) else SErr x
      else SErr x))).
(** linker.rs 1443-1505 *)
Definition op_stx_transfer (amt : Z) (p q : prin) (memo : list Z) (x : sctx) : sres :=
  if amt =? 0 then SOk (err_code non_positive_amount) x
  else if prin_eq_dec p q then SOk (err_code sender_is_recipient) x
  else if negb (match x_sender x with Some s => if prin_eq_dec p s then true else false | None => false end) then SOk (err_code sender_is_not_tx_sender) x
  else
    charge x sz_prin (fun x => charge x sz_prin (fun x => charge x sz_acct (fun x => charge x sz_acct (fun x =>
    if negb (amt <=? available x (x_acct x p)) then SOk (err_code not_enough_balance) x
    else s_bind x (credit (x_acct x q) amt) (fun b => s_bind x (debit x (x_acct x p) amt) (fun a =>
      let x := x_with_acct (x_with_acct x q b) p a in
      if x_sent x p + amt <? 2 ^ 128 then SOk ok_true (x_with_event (x_with_sent x p (x_sent x p + amt)) (EvSend p q amt memo)) else SErr x)))))).

Definition host_fail (st : store sctx) : result sctx := RTrap THost st.
(** linker.rs 1158-1197 *)
Definition i_stx_balance (a : list val) (st : store sctx) : result sctx :=
  match a with
  | [VI32 po; VI32 pl] =>
      match read_prin (smem st) po pl with Some p => run_s st (op_stx_balance p (shost st)) | None => host_fail st end
  | _ => RStuck
  end.
(** linker.rs 1207-1290 *)
Definition i_stx_account (a : list val) (st : store sctx) : result sctx :=
  match a with
  | [VI32 po; VI32 pl] =>
      match read_prin (smem st) po pl with Some p => run_s st (op_stx_account p (shost st)) | None => host_fail st end
  | _ => RStuck
  end.
(** linker.rs 1287-1380; the amount is put together from two 64-bit words *)
Definition i_stx_burn (a : list val) (st : store sctx) : result sctx :=
  match a with
  | [VI64 lo; VI64 hi; VI32 po; VI32 pl] =>
      match read_prin (smem st) po pl with Some p => run_s st (op_stx_burn (amount lo hi) p (shost st)) | None => host_fail st end
  | _ => RStuck
  end.
(** linker.rs 1427-1441: no memo when the length (signed) is not positive *)
Definition read_memo (m : mem) (o l : Z) : option (list Z) :=
  if 0 <? sgn32 l then
    match read_from_wasm m (TBuff l) (sgn32 o) (sgn32 l) with Some (CBuff bs) => Some bs | _ => None end
  else Some [].
(** linker.rs 1382-1518 *)
Definition i_stx_transfer (a : list val) (st : store sctx) : result sctx :=
  match a with
  | [VI64 lo; VI64 hi; VI32 po; VI32 pl; VI32 qo; VI32 ql; VI32 mo; VI32 ml] =>
      match read_prin (smem st) po pl, read_prin (smem st) qo ql, read_memo (smem st) mo ml with
      | Some p, Some q, Some memo => run_s st (op_stx_transfer (amount lo hi) p q memo (shost st))
      | _, _, _ => host_fail st
      end
  | _ => RStuck
  end.
Definition stx_host : list (string * (list vt * (list val -> store sctx -> result sctx))) :=
  [("stdlib.stx_get_balance", ([T32; T32], i_stx_balance));
   ("stdlib.stx_account", ([T32; T32], i_stx_account));
   ("stdlib.stx_burn", ([T64; T64; T32; T32], i_stx_burn));
   ("stdlib.stx_transfer", ([T64; T64; T32; T32; T32; T32; T32; T32], i_stx_transfer))]%string.

(** ** The words: words/stx.rs 16-36 [stx-burn?], 38-58 [stx-get-balance], 60-99
    [stx-transfer?] (no memo: offset 0, length 0), 101-139 [stx-transfer-memo?], 141-161
    [stx-account].  The operands are on the stack.  Cost charging is left out. *)
Definition c_stx_burn : list instr := [Call "stdlib.stx_burn"].
Definition c_stx_balance : list instr := [Call "stdlib.stx_get_balance"].
Definition c_stx_transfer : list instr := [Const (VI32 0); Const (VI32 0); Call "stdlib.stx_transfer"].
Definition c_stx_transfer_memo : list instr := [Call "stdlib.stx_transfer"].
Definition c_stx_account : list instr := [Call "stdlib.stx_account"].
