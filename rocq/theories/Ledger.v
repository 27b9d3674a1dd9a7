(** * The host functions that touch chain state: /repo/clar2wasm/src/linker.rs

    [gctx] is the part of [ClarityWasmContext] (initialize.rs 16-130) and of the
    clarity crate's [GlobalContext] that these functions use.  The clarity crate
    is not in /repo; its database is modelled as plain tables:
    - a savepoint ([begin]) saves a copy of the tables, [commit] drops the newest
      copy, [roll_back] returns to it; both fail when there is none;
    - creating a fungible token twice fails; a token's supply starts at 0;
    - [checked_increase_token_supply] fails above the cap and above 2^128-1,
      [checked_decrease_token_supply] fails below 0;
    - [add_memory] fails when the memory budget is exhausted;
    - writing an entry whose value the declared type does not admit fails;
    - inside at-block, reads see the tables of the chosen block ([g_view]) and
      writes go to the pending tables, as [set_block_hash(_, false)] arranges.
    Events are part of the tables (an event batch is dropped by a roll back).
    Not modelled: the asset maps for post-conditions ([log_token_transfer]) and
    cost tracking.

    A host error ([Err(_)]) is a trap [THost] that keeps the state reached. *)
From Coq Require Import ZArith String List Bool Lia.
Import ListNotations.
From Verif Require Import Wasm StdEnv Bytes SpecBytes SpecUtf8 Clar Codec.
Open Scope Z_scope.

Definition name := list Z.

Definition prin_eq_dec (a b : prin) : {a = b} + {a <> b}.
Proof. decide equality; (apply list_eq_dec || idtac); apply Z.eq_dec. Defined.
Definition name_eq_dec (a b : name) : {a = b} + {a <> b} := list_eq_dec Z.eq_dec a b.

Fixpoint value_eq_dec (a b : value) {struct a} : {a = b} + {a <> b}.
Proof.
  assert (LV : forall l l' : list value, {l = l'} + {l <> l'}) by (apply list_eq_dec; exact value_eq_dec).
  assert (LF : forall l l' : list (string * value), {l = l'} + {l <> l'}).
  { apply list_eq_dec. intros [k v] [k' v'].
    destruct (string_dec k k'); [|right; congruence].
    destruct (value_eq_dec v v'); [left; congruence|right; congruence]. }
  decide equality; try apply Z.eq_dec; try apply (list_eq_dec Z.eq_dec); try apply bool_dec; apply prin_eq_dec.
Defined.

(** ** Tables *)

Inductive event :=
| EvFtMint (n : name) (to : prin) (amt : Z)
| EvFtBurn (n : name) (from : prin) (amt : Z)
| EvFtTransfer (n : name) (from to : prin) (amt : Z)
| EvNftMint (n : name) (id : value) (to : prin)
| EvNftBurn (n : name) (id : value) (from : prin)
| EvNftTransfer (n : name) (id : value) (from to : prin).

(** tables of the contract being run *)
Record db := mkdb {
  d_supply : name -> option Z;          (* None: no such token *)
  d_bal : name -> prin -> Z;            (* 0 when absent *)
  d_owner : name -> value -> option prin;
  d_var : name -> option value;
  d_map : name -> value -> option value;
  d_events : list event }.              (* newest first *)

(** the type information of [ContractAnalysis], present while initialising *)
Record analysis := mkan {
  an_var : name -> option ty;
  an_nft : name -> option ty;
  an_map : name -> option (ty * ty) }.

Record gctx := mkg {
  g_self : prin;                        (* contract_identifier, as a principal *)
  g_an : option analysis;               (* Some: initialising; None: run mode *)
  g_ft : name -> option (option Z);     (* meta_ft: the declared cap *)
  g_nft : name -> option ty;            (* meta_nft *)
  g_vars : name -> option ty;           (* meta_data_var *)
  g_maps : name -> option (ty * ty);    (* meta_data_map *)
  g_db : db;                            (* pending tables *)
  g_layers : list db;                   (* savepoints, newest first *)
  g_ro : list bool;                     (* GlobalContext.read_only *)
  g_hist : list Z -> option db;         (* tables as of a block *)
  g_view : option (list Z);             (* Some h: reads see block h *)
  g_bhh : list (option (list Z));       (* bhh_stack *)
  g_sender : option prin; g_senders : list prin;
  g_caller : option prin; g_callers : list prin;
  g_memory : Z }.                       (* what is left of the memory budget *)

Definition g_with_db (g : gctx) (d : db) : gctx :=
  mkg (g_self g) (g_an g) (g_ft g) (g_nft g) (g_vars g) (g_maps g) d (g_layers g) (g_ro g)
      (g_hist g) (g_view g) (g_bhh g) (g_sender g) (g_senders g) (g_caller g) (g_callers g) (g_memory g).
Definition g_with_memory (g : gctx) (n : Z) : gctx :=
  mkg (g_self g) (g_an g) (g_ft g) (g_nft g) (g_vars g) (g_maps g) (g_db g) (g_layers g) (g_ro g)
      (g_hist g) (g_view g) (g_bhh g) (g_sender g) (g_senders g) (g_caller g) (g_callers g) n.
Definition g_with_tx (g : gctx) (d : db) (ls : list db) (ro : list bool) : gctx :=
  mkg (g_self g) (g_an g) (g_ft g) (g_nft g) (g_vars g) (g_maps g) d ls ro
      (g_hist g) (g_view g) (g_bhh g) (g_sender g) (g_senders g) (g_caller g) (g_callers g) (g_memory g).
Definition g_with_view (g : gctx) (v : option (list Z)) (b : list (option (list Z))) : gctx :=
  mkg (g_self g) (g_an g) (g_ft g) (g_nft g) (g_vars g) (g_maps g) (g_db g) (g_layers g) (g_ro g)
      (g_hist g) v b (g_sender g) (g_senders g) (g_caller g) (g_callers g) (g_memory g).
Definition g_with_sender (g : gctx) (s : option prin) (ss : list prin) : gctx :=
  mkg (g_self g) (g_an g) (g_ft g) (g_nft g) (g_vars g) (g_maps g) (g_db g) (g_layers g) (g_ro g)
      (g_hist g) (g_view g) (g_bhh g) s ss (g_caller g) (g_callers g) (g_memory g).
Definition g_with_caller (g : gctx) (c : option prin) (cs : list prin) : gctx :=
  mkg (g_self g) (g_an g) (g_ft g) (g_nft g) (g_vars g) (g_maps g) (g_db g) (g_layers g) (g_ro g)
      (g_hist g) (g_view g) (g_bhh g) (g_sender g) (g_senders g) c cs (g_memory g).
Definition g_with_meta (g : gctx) ft nft vars maps : gctx :=
  mkg (g_self g) (g_an g) ft nft vars maps (g_db g) (g_layers g) (g_ro g)
      (g_hist g) (g_view g) (g_bhh g) (g_sender g) (g_senders g) (g_caller g) (g_callers g) (g_memory g).

Definition nupd {A} (f : name -> A) (n : name) (a : A) : name -> A :=
  fun n' => if name_eq_dec n' n then a else f n'.
Definition pupd {A} (f : prin -> A) (p : prin) (a : A) : prin -> A :=
  fun p' => if prin_eq_dec p' p then a else f p'.
Definition vupd {A} (f : value -> A) (v : value) (a : A) : value -> A :=
  fun v' => if value_eq_dec v' v then a else f v'.

Definition set_supply (d : db) n s := mkdb (nupd (d_supply d) n (Some s)) (d_bal d) (d_owner d) (d_var d) (d_map d) (d_events d).
Definition set_bal (d : db) n p b := mkdb (d_supply d) (nupd (d_bal d) n (pupd (d_bal d n) p b)) (d_owner d) (d_var d) (d_map d) (d_events d).
Definition set_owner (d : db) n i o := mkdb (d_supply d) (d_bal d) (nupd (d_owner d) n (vupd (d_owner d n) i o)) (d_var d) (d_map d) (d_events d).
Definition set_var (d : db) n v := mkdb (d_supply d) (d_bal d) (d_owner d) (nupd (d_var d) n (Some v)) (d_map d) (d_events d).
Definition set_map (d : db) n k v := mkdb (d_supply d) (d_bal d) (d_owner d) (d_var d) (nupd (d_map d) n (vupd (d_map d n) k v)) (d_events d).
Definition add_event (d : db) e := mkdb (d_supply d) (d_bal d) (d_owner d) (d_var d) (d_map d) (e :: d_events d).

(** the tables that reads see *)
Definition cur (g : gctx) : option db :=
  match g_view g with None => Some (g_db g) | Some h => g_hist g h end.

(** ** A state-and-error monad for host functions *)

Inductive hres (A : Type) := HOk (a : A) (g : gctx) | HErr (g : gctx).
Arguments HOk {A}. Arguments HErr {A}.
Definition H (A : Type) := gctx -> hres A.
Definition hret {A} (a : A) : H A := fun g => HOk a g.
Definition hfail {A} : H A := fun g => HErr g.
Definition hbind {A B} (x : H A) (k : A -> H B) : H B :=
  fun g => match x g with HOk a g' => k a g' | HErr g' => HErr g' end.
Definition hget : H gctx := fun g => HOk g g.
Definition hput (g : gctx) : H unit := fun _ => HOk tt g.
Definition hopt {A} (o : option A) : H A := fun g => match o with Some a => HOk a g | None => HErr g end.
Definition hguard (b : bool) : H unit := fun g => if b then HOk tt g else HErr g.
Definition hmod (f : gctx -> gctx) : H unit := fun g => HOk tt (f g).
Notation "'let!' X ':=' A 'in' B" := (hbind A (fun X => B)) (at level 200, X name, A at level 100, B at level 200).
Notation "A ';!' B" := (hbind A (fun _ => B)) (at level 100, right associativity).

(** GlobalContext::add_memory *)
Definition add_memory (n : Z) : H unit :=
  fun g => if n <=? g_memory g then HOk tt (g_with_memory g (g_memory g - n)) else HErr g.
(** TypeSignature::PrincipalType.size() and UIntType.size(), .type_size() *)
Definition sz_prin : Z := 148.
Definition sz_uint : Z := 16.

Definition db_mod (f : db -> db) : H unit := hmod (fun g => g_with_db g (f (g_db g))).
Definition reading : H db := let! g := hget in hopt (cur g).

(** ClarityDatabase functions (clarity crate) *)
Definition get_ft_supply (n : name) : H Z := let! d := reading in hopt (d_supply d n).
Definition get_ft_balance (n : name) (p : prin) : H Z :=
  let! d := reading in
  match d_supply d n with Some _ => hret (d_bal d n p) | None => hfail end.
Definition checked_increase_token_supply (n : name) (amt : Z) (cap : option Z) : H unit :=
  let! s := get_ft_supply n in
  hguard (s + amt <? 2 ^ 128) ;!
  hguard (match cap with Some c => s + amt <=? c | None => true end) ;!
  db_mod (fun d => set_supply d n (s + amt)).
Definition checked_decrease_token_supply (n : name) (amt : Z) : H unit :=
  let! s := get_ft_supply n in
  hguard (amt <=? s) ;!
  db_mod (fun d => set_supply d n (s - amt)).
Definition set_ft_balance (n : name) (p : prin) (b : Z) : H unit := db_mod (fun d => set_bal d n p b).
(** get_nft_owner: [None] is the NoSuchToken error *)
Definition get_nft_owner (n : name) (i : value) : H (option prin) :=
  let! d := reading in hret (d_owner d n i).
Definition emit (e : event) : H unit := db_mod (fun d => add_event d e).

(** ** Results *)
Definition ok_true : list val := [VI32 1; VI32 1; VI64 0; VI64 0].
(** the NFT functions return 132 for true: linker.rs 2284, 2412, 2584 *)
Definition ok_nft : list val := [VI32 1; VI32 132; VI64 0; VI64 0].
Definition err_code (c : Z) : list val := [VI32 0; VI32 0; VI64 c; VI64 0].

(** ** Fungible tokens *)

(** linker.rs 1521-1560 *)
Definition op_ft_get_supply (n : name) : H (list val) :=
  let! s := get_ft_supply n in hret [VI64 (s mod m64); VI64 (s / m64)].

(** linker.rs 1562-1620 *)
Definition op_ft_get_balance (n : name) (p : prin) : H (list val) :=
  let! g := hget in
  match g_ft g n with
  | None => hfail
  | Some _ => let! b := get_ft_balance n p in hret [VI64 (b mod m64); VI64 (b / m64)]
  end.

(** linker.rs 1622-1736 *)
Definition op_ft_burn (n : name) (amt : Z) (p : prin) : H (list val) :=
  if amt =? 0 then hret (err_code 1)
  else
    let! b := get_ft_balance n p in
    if b <? amt then hret (err_code 1)
    else
      checked_decrease_token_supply n amt ;!
      set_ft_balance n p (b - amt) ;!
      emit (EvFtBurn n p amt) ;!
      add_memory sz_prin ;! add_memory sz_uint ;!
      hret ok_true.

(** linker.rs 1738-1857 *)
Definition op_ft_mint (n : name) (amt : Z) (p : prin) : H (list val) :=
  if amt =? 0 then hret (err_code 1)
  else
    let! g := hget in
    match g_ft g n with
    | None => hfail
    | Some cap =>
        checked_increase_token_supply n amt cap ;!
        let! b := get_ft_balance n p in
        hguard (b + amt <? 2 ^ 128) ;!
        add_memory sz_prin ;! add_memory sz_uint ;!
        set_ft_balance n p (b + amt) ;!
        emit (EvFtMint n p amt) ;!
        hret ok_true
    end.

(** linker.rs 1859-2055 *)
Definition op_ft_transfer (n : name) (amt : Z) (from to : prin) : H (list val) :=
  if amt =? 0 then hret (err_code 3)
  else if prin_eq_dec from to then hret (err_code 2)
  else
    let! g := hget in
    match g_ft g n with
    | None => hfail
    | Some _ =>
        let! fb := get_ft_balance n from in
        if fb <? amt then hret (err_code 1)
        else
          let! tb := get_ft_balance n to in
          hguard (tb + amt <? 2 ^ 128) ;!
          add_memory sz_prin ;! add_memory sz_prin ;! add_memory sz_uint ;! add_memory sz_uint ;!
          set_ft_balance n from (fb - amt) ;!
          set_ft_balance n to (tb + amt) ;!
          emit (EvFtTransfer n from to amt) ;!
          hret ok_true
    end.

(** ** Non-fungible tokens *)

(** TypeSignature::admits, on values read with that type: only lengths can fail *)
Fixpoint admits (t : ty) (v : value) {struct t} : bool :=
  match t, v with
  | TInt, CInt _ | TUInt, CUInt _ | TBool, CBool _ | TPrin, CPrin _ => true
  | TTrait i, CCallable _ j => if list_eq_dec Z.eq_dec i j then true else false
  | TBuff n, CBuff bs => Z.of_nat (length bs) <=? n
  | TAscii n, CAscii bs => Z.of_nat (length bs) <=? n
  | TUtf8 n, CUtf8 cs => Z.of_nat (length cs) <=? n
  | TList n t, CList vs => (Z.of_nat (length vs) <=? n) && forallb (admits t) vs
  | TOpt t, CNone => true
  | TOpt t, CSome v => admits t v
  | TResp t _, COk v => admits t v
  | TResp _ e, CErr v => admits e v
  | TTuple fs, CTuple vs =>
      (fix go (fs : list (string * ty)) (vs : list (string * value)) {struct fs} : bool :=
         match fs, vs with
         | [], [] => true
         | (k, t) :: fs, (k', v) :: vs => String.eqb k k' && admits t v && go fs vs
         | _, _ => false
         end) fs vs
  | _, _ => false
  end.

(** Value::serialized_size (SIP-005 length; the charge for storing the value) *)
Fixpoint ser_size (v : value) : Z :=
  match v with
  | CInt _ | CUInt _ => 17
  | CBool _ => 1
  | CPrin (PStd _ _) => 22
  | CPrin (PCon _ _ n) | CCallable (PStd _ n) _ | CCallable (PCon _ _ n) _ => 23 + Z.of_nat (length n)
  | CBuff bs | CAscii bs => 5 + Z.of_nat (length bs)
  | CUtf8 cs => 5 + Z.of_nat (length (utf8 cs))
  | CList vs => 5 + fold_right (fun v n => ser_size v + n) 0 vs
  | CNone => 1
  | CSome v | COk v | CErr v => 1 + ser_size v
  | CTuple fs => 5 + fold_right (fun f n => 1 + Z.of_nat (String.length (fst f)) + ser_size (snd f) + n) 0 fs
  end.

(** linker.rs 2057-2150; [k] writes the principal to the return buffer *)
Definition op_nft_get_owner (n : name) (t : ty) (i : value) : H (option prin) :=
  hguard (admits t i) ;! get_nft_owner n i.

(** linker.rs 2152-2290 *)
Definition op_nft_burn (n : name) (t : ty) (i : value) (p : prin) : H (list val) :=
  hguard (admits t i) ;!
  let! o := get_nft_owner n i in
  match o with
  | None => hret (err_code 3)
  | Some o =>
      if prin_eq_dec o p then
        add_memory sz_prin ;! add_memory (ser_size i) ;!
        db_mod (fun d => set_owner d n i None) ;!
        emit (EvNftBurn n i p) ;!
        hret ok_nft
      else hret (err_code 1)
  end.

(** linker.rs 2292-2420 *)
Definition op_nft_mint (n : name) (t : ty) (i : value) (p : prin) : H (list val) :=
  hguard (admits t i) ;!
  let! o := get_nft_owner n i in
  match o with
  | Some _ => hret (err_code 1)
  | None =>
      add_memory sz_prin ;! add_memory (ser_size i) ;!
      db_mod (fun d => set_owner d n i (Some p)) ;!
      emit (EvNftMint n i p) ;!
      hret ok_nft
  end.

(** linker.rs 2422-2596 *)
Definition op_nft_transfer (n : name) (t : ty) (i : value) (from to : prin) : H (list val) :=
  hguard (admits t i) ;!
  if prin_eq_dec from to then hret (err_code 2)
  else
    let! o := get_nft_owner n i in
    match o with
    | None => hret (err_code 3)
    | Some o =>
        if prin_eq_dec o from then
          add_memory sz_prin ;! add_memory (ser_size i) ;!
          db_mod (fun d => set_owner d n i (Some to)) ;!
          emit (EvNftTransfer n i from to) ;!
          hret ok_nft
        else hret (err_code 1)
    end.

(** ** Data variables and maps *)

(** linker.rs 606-692: the value, to be written at the return offset *)
Definition op_get_variable (n : name) : H value :=
  let! d := reading in hopt (d_var d n).
(** linker.rs 694-775 *)
Definition op_set_variable (n : name) (t : ty) (v : value) : H (list val) :=
  hguard (admits t v) ;! db_mod (fun d => set_var d n v) ;! hret [].

Definition is_read_only (g : gctx) : bool := match g_ro g with b :: _ => b | [] => false end.
Definition writable : H unit := let! g := hget in hguard (negb (is_read_only g)).

(** linker.rs 2598-2685 *)
Definition op_map_get (n : name) (kt : ty) (k : value) : H value :=
  hguard (admits kt k) ;!
  let! d := reading in
  hret (match d_map d n k with Some v => CSome v | None => CNone end).
(** linker.rs 2687-2790 *)
Definition op_map_set (n : name) (kt vt : ty) (k v : value) : H (list val) :=
  hguard (admits kt k) ;! hguard (admits vt v) ;!
  db_mod (fun d => set_map d n k (Some v)) ;!
  add_memory (ser_size k + ser_size v) ;! hret [VI32 1].
(** linker.rs 2792-2895 *)
Definition op_map_insert (n : name) (kt vt : ty) (k v : value) : H (list val) :=
  hguard (admits kt k) ;! hguard (admits vt v) ;!
  let! d := reading in
  match d_map d n k with
  | Some _ => add_memory (ser_size k + ser_size v) ;! hret [VI32 0]
  | None =>
      db_mod (fun d => set_map d n k (Some v)) ;!
      add_memory (ser_size k + ser_size v) ;! hret [VI32 1]
  end.
(** linker.rs 2897-2990 *)
Definition op_map_delete (n : name) (kt : ty) (k : value) : H (list val) :=
  hguard (admits kt k) ;!
  let! d := reading in
  match d_map d n k with
  | None => add_memory (ser_size k) ;! hret [VI32 0]
  | Some _ =>
      db_mod (fun d => set_map d n k None) ;!
      add_memory (ser_size k) ;! hret [VI32 1]
  end.

(** ** Definitions (only while initialising: [contract_context_mut]) *)

Definition initialising : H analysis := let! g := hget in hopt (g_an g).

(** linker.rs 206-270.  [supply_lo as u128] sign-extends the i64 *)
Definition ft_cap (ind lo hi : Z) : option Z :=
  if ind =? 1
  then Some (Z.lor ((sgn64 hi mod m128 * 2 ^ 64) mod m128) (sgn64 lo mod m128))
  else None.
Definition op_define_ft (n : name) (ind lo hi : Z) : H (list val) :=
  let! a := initialising in
  add_memory 1 ;!
  let! d := reading in
  match d_supply d n with
  | Some _ => hfail
  | None =>
      db_mod (fun d => set_supply d n 0) ;!
      hmod (fun g => g_with_meta g (nupd (g_ft g) n (Some (ft_cap ind lo hi))) (g_nft g) (g_vars g) (g_maps g)) ;!
      hret []
  end.

(** linker.rs 272-338 *)
Definition op_define_nft (n : name) : H (list val) :=
  let! a := initialising in
  let! t := hopt (an_nft a n) in
  add_memory 1 ;!
  let! g := hget in
  match g_nft g n with
  | Some _ => hfail
  | None => hmod (fun g => g_with_meta g (g_ft g) (nupd (g_nft g) n (Some t)) (g_vars g) (g_maps g)) ;! hret []
  end.

(** linker.rs 109-204; the initial value is already read *)
Definition op_define_variable (n : name) (t : ty) (v : value) : H (list val) :=
  add_memory 1 ;! add_memory (ser_size v) ;!
  let! g := hget in
  match g_vars g n with
  | Some _ => hfail
  | None =>
      hguard (admits t v) ;!
      db_mod (fun d => set_var d n v) ;!
      hmod (fun g => g_with_meta g (g_ft g) (g_nft g) (nupd (g_vars g) n (Some t)) (g_maps g)) ;! hret []
  end.

(** linker.rs 340-424 *)
Definition op_define_map (n : name) : H (list val) :=
  let! a := initialising in
  let! t := hopt (an_map a n) in
  add_memory 1 ;! add_memory 1 ;!
  let! g := hget in
  match g_maps g n with
  | Some _ => hfail
  | None => hmod (fun g => g_with_meta g (g_ft g) (g_nft g) (g_vars g) (nupd (g_maps g) n (Some t))) ;! hret []
  end.

(** ** Savepoints: linker.rs 4476-4560 *)
Definition op_begin_public : H (list val) :=
  hmod (fun g => g_with_tx g (g_db g) (g_db g :: g_layers g) (is_read_only g :: g_ro g)) ;! hret [].
Definition op_begin_read_only : H (list val) :=
  hmod (fun g => g_with_tx g (g_db g) (g_db g :: g_layers g) (true :: g_ro g)) ;! hret [].
Definition op_commit : H (list val) :=
  let! g := hget in
  match g_layers g with
  | _ :: ls => hput (g_with_tx g (g_db g) ls (tl (g_ro g))) ;! hret []
  | [] => hfail
  end.
Definition op_roll_back : H (list val) :=
  let! g := hget in
  match g_layers g with
  | d :: ls => hput (g_with_tx g d ls (tl (g_ro g))) ;! hret []
  | [] => hfail
  end.

(** ** at-block: linker.rs 4604-4705 *)
Definition at_block_memory : Z := 1.
Definition op_enter_at_block (h : list Z) : H (list val) :=
  hguard (Z.of_nat (length h) =? 32) ;!
  add_memory at_block_memory ;!
  op_begin_read_only ;!
  let! g := hget in
  match g_hist g h with
  | None => hfail
  | Some _ => hput (g_with_view g (Some h) (g_view g :: g_bhh g)) ;! hret []
  end.
Definition op_exit_at_block : H (list val) :=
  let! g := hget in
  match g_bhh g with
  | [] => hfail
  | v :: vs =>
      hput (g_with_view g v vs) ;!
      op_roll_back ;!
      hmod (fun g => g_with_memory g (g_memory g + at_block_memory)) ;! hret []
  end.

(** ** tx-sender and contract-caller: initialize.rs 85-115, linker.rs 1106-1155 *)
Definition push_sender (p : prin) (g : gctx) : gctx :=
  g_with_sender g (Some p) (match g_sender g with Some s => s :: g_senders g | None => g_senders g end).
Definition push_caller (p : prin) (g : gctx) : gctx :=
  g_with_caller g (Some p) (match g_caller g with Some s => s :: g_callers g | None => g_callers g end).
Definition pop_sender : H unit :=
  let! g := hget in
  match g_sender g with
  | None => hfail
  | Some _ => hput (match g_senders g with s :: ss => g_with_sender g (Some s) ss | [] => g_with_sender g None [] end)
  end.
Definition pop_caller : H unit :=
  let! g := hget in
  match g_caller g with
  | None => hfail
  | Some _ => hput (match g_callers g with s :: ss => g_with_caller g (Some s) ss | [] => g_with_caller g None [] end)
  end.
Definition op_enter_as_contract : H (list val) :=
  hmod (fun g => push_caller (g_self g) (push_sender (g_self g) g)) ;! hret [].
Definition op_exit_as_contract : H (list val) := pop_sender ;! pop_caller ;! hret [].

(** ** The imports: reading arguments from the module's memory *)

Definition hval := list val.
Definition run_op (st : store gctx) (m : mem) (r : hres (list val)) : result gctx :=
  match r with
  | HOk vs g => RVals vs (mkstore m (sglob st) g)
  | HErr g => RTrap THost (mkstore m (sglob st) g)
  end.
Definition host_err (st : store gctx) : result gctx := RTrap THost st.

(** ClarityName::try_from: the regular expression of the clarity crate *)
Definition is_name_rest (c : Z) : bool :=
  is_name_char c || existsb (Z.eqb c) [33; 63; 43; 60; 62; 61; 47; 42].
Definition is_clarity_name (s : list Z) : bool :=
  (Z.of_nat (length s) <=? 128) &&
  match s with
  | [] => false
  | c :: r =>
      (is_letter c && forallb is_name_rest r) ||
      match r with
      | [] => existsb (Z.eqb c) [45; 43; 61; 47; 42; 60; 62]
      | [d] => existsb (Z.eqb c) [60; 62] && (d =? 61)
      | _ => false
      end
  end.

(** wasm_utils.rs 1177-1185 (UTF-8 validity is implied by the later checks) *)
Definition read_name (m : mem) (o l : Z) : option name :=
  do bs <- hread m (sgn32 o) (sgn32 l);
  if is_clarity_name bs then Some bs else None.
(** read_from_wasm with PrincipalType, then [value_as_principal] *)
Definition read_prin (m : mem) (o l : Z) : option prin :=
  match read_from_wasm m TPrin (sgn32 o) (sgn32 l) with Some (CPrin p) => Some p | _ => None end.
(** a value passed by the generated code: through its (offset, length) pair when in memory *)
Definition read_arg (m : mem) (t : ty) (o l : Z) : option value :=
  if is_in_memory_type t then
    do ol <- read_indirect_offset_and_length m (sgn32 o);
    read_from_wasm m t (fst ol) (snd ol)
  else read_from_wasm m t (sgn32 o) (sgn32 l).
(** [((hi as u128) << 64) | ((lo as u64) as u128)] *)
Definition amount (lo hi : Z) : Z := (hi mod m64) * m64 + lo mod m64.

Definition i_ft_get_supply (a : hval) (st : store gctx) : result gctx :=
  match a with
  | [VI32 no; VI32 nl] =>
      match read_name (smem st) no nl with
      | Some n => run_op st (smem st) (op_ft_get_supply n (shost st))
      | None => host_err st
      end
  | _ => RStuck
  end.
Definition i_ft_get_balance (a : hval) (st : store gctx) : result gctx :=
  match a with
  | [VI32 no; VI32 nl; VI32 oo; VI32 ol] =>
      match read_name (smem st) no nl, read_prin (smem st) oo ol with
      | Some n, Some p => run_op st (smem st) (op_ft_get_balance n p (shost st))
      | _, _ => host_err st
      end
  | _ => RStuck
  end.
Definition i_ft_burn (a : hval) (st : store gctx) : result gctx :=
  match a with
  | [VI32 no; VI32 nl; VI64 lo; VI64 hi; VI32 so; VI32 sl] =>
      match read_name (smem st) no nl, read_prin (smem st) so sl with
      | Some n, Some p => run_op st (smem st) (op_ft_burn n (amount lo hi) p (shost st))
      | _, _ => host_err st
      end
  | _ => RStuck
  end.
Definition i_ft_mint (a : hval) (st : store gctx) : result gctx :=
  match a with
  | [VI32 no; VI32 nl; VI64 lo; VI64 hi; VI32 so; VI32 sl] =>
      match read_name (smem st) no nl, read_prin (smem st) so sl with
      | Some n, Some p => run_op st (smem st) (op_ft_mint n (amount lo hi) p (shost st))
      | _, _ => host_err st
      end
  | _ => RStuck
  end.
Definition i_ft_transfer (a : hval) (st : store gctx) : result gctx :=
  match a with
  | [VI32 no; VI32 nl; VI64 lo; VI64 hi; VI32 so; VI32 sl; VI32 ro; VI32 rl] =>
      match read_name (smem st) no nl, read_prin (smem st) so sl, read_prin (smem st) ro rl with
      | Some n, Some p, Some q => run_op st (smem st) (op_ft_transfer n (amount lo hi) p q (shost st))
      | _, _, _ => host_err st
      end
  | _ => RStuck
  end.

(** name, metadata and identifier of an NFT *)
Definition nft_args (st : store gctx) (no nl ao al : Z) : option (name * ty * value) :=
  do n <- read_name (smem st) no nl;
  do t <- g_nft (shost st) n;
  do v <- read_arg (smem st) t ao al;
  Some (n, t, v).
Definition i_nft_get_owner (a : hval) (st : store gctx) : result gctx :=
  match a with
  | [VI32 no; VI32 nl; VI32 ao; VI32 al; VI32 ro; VI32 rl] =>
      match nft_args st no nl ao al with
      | Some (n, t, i) =>
          match op_nft_get_owner n t i (shost st) with
          | HOk (Some p) g =>
              match write_to_wasm (smem st) TPrin (sgn32 ro) (sgn32 ro) (CPrin p) false with
              | Some (m, _, w) => RVals [VI32 1; VI32 ro; w32 w] (mkstore m (sglob st) g)
              | None => RTrap THost (mkstore (smem st) (sglob st) g)
              end
          | HOk None g => RVals [VI32 0; VI32 0; VI32 0] (mkstore (smem st) (sglob st) g)
          | HErr g => RTrap THost (mkstore (smem st) (sglob st) g)
          end
      | None => host_err st
      end
  | _ => RStuck
  end.
Definition i_nft_burn (a : hval) (st : store gctx) : result gctx :=
  match a with
  | [VI32 no; VI32 nl; VI32 ao; VI32 al; VI32 so; VI32 sl] =>
      match nft_args st no nl ao al, read_prin (smem st) so sl with
      | Some (n, t, i), Some p => run_op st (smem st) (op_nft_burn n t i p (shost st))
      | _, _ => host_err st
      end
  | _ => RStuck
  end.
Definition i_nft_mint (a : hval) (st : store gctx) : result gctx :=
  match a with
  | [VI32 no; VI32 nl; VI32 ao; VI32 al; VI32 so; VI32 sl] =>
      match nft_args st no nl ao al, read_prin (smem st) so sl with
      | Some (n, t, i), Some p => run_op st (smem st) (op_nft_mint n t i p (shost st))
      | _, _ => host_err st
      end
  | _ => RStuck
  end.
Definition i_nft_transfer (a : hval) (st : store gctx) : result gctx :=
  match a with
  | [VI32 no; VI32 nl; VI32 ao; VI32 al; VI32 so; VI32 sl; VI32 ro; VI32 rl] =>
      match nft_args st no nl ao al, read_prin (smem st) so sl, read_prin (smem st) ro rl with
      | Some (n, t, i), Some p, Some q => run_op st (smem st) (op_nft_transfer n t i p q (shost st))
      | _, _, _ => host_err st
      end
  | _ => RStuck
  end.

(** write a value of type [t] at the return offset, as [get_variable] and [map_get] do *)
Definition return_value (st : store gctx) (t : ty) (ro : Z) (r : hres value) : result gctx :=
  match r with
  | HOk v g =>
      match write_to_wasm (smem st) t (sgn32 ro) (sgn32 ro + get_type_size t) v true with
      | Some (m, _, _) => RVals [] (mkstore m (sglob st) g)
      | None => RTrap THost (mkstore (smem st) (sglob st) g)
      end
  | HErr g => RTrap THost (mkstore (smem st) (sglob st) g)
  end.
Definition i_get_variable (a : hval) (st : store gctx) : result gctx :=
  match a with
  | [VI32 no; VI32 nl; VI32 ro; VI32 rl] =>
      match read_name (smem st) no nl with
      | Some n =>
          match g_vars (shost st) n with
          | Some t => return_value st t ro (op_get_variable n (shost st))
          | None => host_err st
          end
      | None => host_err st
      end
  | _ => RStuck
  end.
Definition i_set_variable (a : hval) (st : store gctx) : result gctx :=
  match a with
  | [VI32 no; VI32 nl; VI32 vo; VI32 vl] =>
      match read_name (smem st) no nl with
      | Some n =>
          match g_vars (shost st) n with
          | Some t =>
              match read_arg (smem st) t vo vl with
              | Some v => run_op st (smem st) (op_set_variable n t v (shost st))
              | None => host_err st
              end
          | None => host_err st
          end
      | None => host_err st
      end
  | _ => RStuck
  end.

Definition map_args (st : store gctx) (no nl ko kl : Z) : option (name * ty * ty * value) :=
  do n <- read_name (smem st) no nl;
  do kv <- g_maps (shost st) n;
  do k <- read_arg (smem st) (fst kv) ko kl;
  Some (n, fst kv, snd kv, k).
Definition i_map_get (a : hval) (st : store gctx) : result gctx :=
  match a with
  | [VI32 no; VI32 nl; VI32 ko; VI32 kl; VI32 ro; VI32 rl] =>
      match map_args st no nl ko kl with
      | Some (n, kt, vt, k) => return_value st (TOpt vt) ro (op_map_get n kt k (shost st))
      | None => host_err st
      end
  | _ => RStuck
  end.
Definition i_map_put (op : name -> ty -> ty -> value -> value -> H (list val)) (a : hval) (st : store gctx) : result gctx :=
  match a with
  | [VI32 no; VI32 nl; VI32 ko; VI32 kl; VI32 vo; VI32 vl] =>
      if is_read_only (shost st) then host_err st
      else
        match map_args st no nl ko kl with
        | Some (n, kt, vt, k) =>
            match read_arg (smem st) vt vo vl with
            | Some v => run_op st (smem st) (op n kt vt k v (shost st))
            | None => host_err st
            end
        | None => host_err st
        end
  | _ => RStuck
  end.
Definition i_map_delete (a : hval) (st : store gctx) : result gctx :=
  match a with
  | [VI32 no; VI32 nl; VI32 ko; VI32 kl] =>
      if is_read_only (shost st) then host_err st
      else
        match map_args st no nl ko kl with
        | Some (n, kt, vt, k) => run_op st (smem st) (op_map_delete n kt k (shost st))
        | None => host_err st
        end
  | _ => RStuck
  end.

Definition i_define_ft (a : hval) (st : store gctx) : result gctx :=
  match a with
  | [VI32 no; VI32 nl; VI32 ind; VI64 lo; VI64 hi] =>
      match read_name (smem st) no nl with
      | Some n => run_op st (smem st) (op_define_ft n (sgn32 ind) lo hi (shost st))
      | None => host_err st
      end
  | _ => RStuck
  end.
Definition i_define_name (op : name -> H (list val)) (a : hval) (st : store gctx) : result gctx :=
  match a with
  | [VI32 no; VI32 nl] =>
      match read_name (smem st) no nl with
      | Some n => run_op st (smem st) (op n (shost st))
      | None => host_err st
      end
  | _ => RStuck
  end.
Definition i_define_variable (a : hval) (st : store gctx) : result gctx :=
  match a with
  | [VI32 no; VI32 nl; VI32 vo; VI32 vl] =>
      match read_name (smem st) no nl with
      | Some n =>
          match g_an (shost st) with
          | Some an =>
              match an_var an n with
              | Some t =>
                  match read_arg (smem st) t vo vl with
                  | Some v => run_op st (smem st) (op_define_variable n t v (shost st))
                  | None => host_err st
                  end
              | None => host_err st
              end
          | None => host_err st
          end
      | None => host_err st
      end
  | _ => RStuck
  end.

Definition i_nullary (op : H (list val)) (a : hval) (st : store gctx) : result gctx :=
  match a with [] => run_op st (smem st) (op (shost st)) | _ => RStuck end.

Definition i_enter_at_block (a : hval) (st : store gctx) : result gctx :=
  match a with
  | [VI32 o; VI32 l] =>
      match read_from_wasm (smem st) (TBuff 32) (sgn32 o) (sgn32 l) with
      | Some (CBuff h) => run_op st (smem st) (op_enter_at_block h (shost st))
      | _ => host_err st
      end
  | _ => RStuck
  end.

(** linker.rs 777-857: tx_sender, contract_caller *)
Definition i_principal (get : gctx -> option prin) (a : hval) (st : store gctx) : result gctx :=
  match a with
  | [VI32 ro; VI32 rl] =>
      match get (shost st) with
      | Some p =>
          match write_to_wasm (smem st) TPrin (sgn32 ro) (sgn32 ro) (CPrin p) false with
          | Some (m, _, w) => RVals [VI32 ro; w32 w] (with_mem st m)
          | None => host_err st
          end
      | None => host_err st
      end
  | _ => RStuck
  end.

(** ** Import table (standard.wat 16-320), without at-block: see [at_block_host] *)
Definition T (n : nat) : list vt := repeat T32 n.
Definition ledger_host : list (string * (list vt * (list val -> store gctx -> result gctx))) :=
  [ ("stdlib.define_variable", (T 4, i_define_variable));
    ("stdlib.define_ft", ((T 3 ++ [T64; T64])%list, i_define_ft));
    ("stdlib.define_nft", (T 2, i_define_name op_define_nft));
    ("stdlib.define_map", (T 2, i_define_name op_define_map));
    ("stdlib.get_variable", (T 4, i_get_variable));
    ("stdlib.set_variable", (T 4, i_set_variable));
    ("stdlib.enter_as_contract", ([], i_nullary op_enter_as_contract));
    ("stdlib.exit_as_contract", ([], i_nullary op_exit_as_contract));
    ("stdlib.ft_get_supply", (T 2, i_ft_get_supply));
    ("stdlib.ft_get_balance", (T 4, i_ft_get_balance));
    ("stdlib.ft_burn", ((T 2 ++ [T64; T64] ++ T 2)%list, i_ft_burn));
    ("stdlib.ft_mint", ((T 2 ++ [T64; T64] ++ T 2)%list, i_ft_mint));
    ("stdlib.ft_transfer", ((T 2 ++ [T64; T64] ++ T 4)%list, i_ft_transfer));
    ("stdlib.nft_get_owner", (T 6, i_nft_get_owner));
    ("stdlib.nft_burn", (T 6, i_nft_burn));
    ("stdlib.nft_mint", (T 6, i_nft_mint));
    ("stdlib.nft_transfer", (T 8, i_nft_transfer));
    ("stdlib.map_get", (T 6, i_map_get));
    ("stdlib.map_set", (T 6, i_map_put op_map_set));
    ("stdlib.map_insert", (T 6, i_map_put op_map_insert));
    ("stdlib.map_delete", (T 4, i_map_delete));
    ("stdlib.begin_public_call", ([], i_nullary op_begin_public));
    ("stdlib.begin_read_only_call", ([], i_nullary op_begin_read_only));
    ("stdlib.commit_call", ([], i_nullary op_commit));
    ("stdlib.roll_back_call", ([], i_nullary op_roll_back));
    ("stdlib.tx_sender", (T 2, i_principal g_sender));
    ("stdlib.contract_caller", (T 2, i_principal g_caller)) ]%string.
Definition at_block_host : list (string * (list vt * (list val -> store gctx -> result gctx))) :=
  [ ("stdlib.enter_at_block", (T 2, i_enter_at_block));
    ("stdlib.exit_at_block", ([], i_nullary op_exit_at_block)) ]%string.

(** ** contract-call?: linker.rs 4297-4470, direct calls *)

(** what a call shares with its caller ([global_context]); sender, caller and
    declarations belong to each [ClarityWasmContext] *)
Definition g_shared (g g' : gctx) : gctx :=
  mkg (g_self g) (g_an g) (g_ft g) (g_nft g) (g_vars g) (g_maps g) (g_db g') (g_layers g') (g_ro g')
      (g_hist g') (g_view g') (g_bhh g) (g_sender g) (g_senders g) (g_caller g) (g_callers g) (g_memory g').

(** a deployed function: argument types, return type, and what running it does *)
Record deployed := mkdeployed { dp_args : list ty; dp_ret : ty; dp_run : list value -> H value }.

(** the arguments, one after the other, each of its declared type *)
Fixpoint read_args (m : mem) (ts : list ty) (off : Z) : option (list value) :=
  match ts with
  | [] => Some []
  | t :: ts =>
      do v <- read_from_wasm_indirect m t off;
      do vs <- read_args m ts (off + get_type_size t);
      Some (v :: vs)
  end.

Definition op_contract_call (d : deployed) (args : list value) : H value := fun g =>
  let g1 := push_caller (g_self g) g in
  match dp_run d args g1 with
  | HOk v g2 => HOk v (g_shared g1 g2)
  | HErr g2 => HErr (g_shared g1 g2)
  end.

Definition i_contract_call (chain : prin -> name -> option deployed) (a : hval) (st : store gctx) : result gctx :=
  match a with
  | [VI32 to; VI32 tl; VI32 co; VI32 cl; VI32 fo; VI32 fl; VI32 ao; VI32 al; VI32 ro; VI32 rl] =>
      match read_prin (smem st) co cl, read_name (smem st) fo fl with
      | Some (PCon v h n), Some f =>
          match chain (PCon v h n) f with
          | Some d =>
              match read_args (smem st) (dp_args d) (sgn32 ao) with
              | Some args => return_value st (dp_ret d) ro (op_contract_call d args (shost st))
              | None => host_err st
              end
          | None => host_err st
          end
      | _, _ => host_err st
      end
  | _ => RStuck
  end.
