(** * Property theorems for chain state: C36, C37, C38 and the host's own errors C44, C45.

    The module is arbitrary code: nothing below assumes it came from the
    compiler, except where [bracketed] says how it opens and closes savepoints. *)
From Coq Require Import ZArith String List Bool Lia Arith.
Import ListNotations.
From Verif Require Import Wasm StdEnv WasmLogic Spec ZBits Clar Codec Rep RepFacts ReadProofs WriteProofs PropCodec
  Ledger Invar SpecLedger LedgerProofs Calls CallProofs HostSaves.
Open Scope Z_scope.

(** ** Histories *)

(** an import that does not touch the tables, the savepoints, the declared tokens
    or the block being read *)
Definition neutral (h : list val -> store gctx -> result gctx) : Prop := forall args st,
  match h args st with
  | RVals _ st' | RTrap _ st' =>
      let g := shost st in let g' := shost st' in
      g_db g' = g_db g /\ g_layers g' = g_layers g /\ g_ft g' = g_ft g /\ g_view g' = g_view g
  | _ => True
  end.
(** every import is one of the modelled host functions, or neutral; at-block is left out *)
Definition ledger_module (E : env gctx) : Prop := forall n ps h, ehost E n = Some (ps, h) ->
  assoc n ledger_host = Some (ps, h) \/ neutral h.

(** What can happen to the chain state: the VM opens, commits and rolls back
    savepoints; any function of any module is called with any arguments, memory
    and globals; when it aborts, the VM goes back to one of the open savepoints. *)
Inductive reachable (g0 : gctx) : gctx -> Prop :=
| re_start : reachable g0 g0
| re_begin g ro : reachable g0 g ->
    reachable g0 (g_with_tx g (g_db g) (g_db g :: g_layers g) ro)
| re_commit g d ls ro : reachable g0 g -> g_layers g = d :: ls -> reachable g0 (g_with_tx g (g_db g) ls ro)
| re_roll_back g d ls ro : reachable g0 g -> g_layers g = d :: ls -> reachable g0 (g_with_tx g d ls ro)
| re_call g E f args m gl vs st : reachable g0 g -> ledger_module E ->
    calls E f args (mkstore m gl g) (RVals vs st) -> reachable g0 (shost st)
| re_abort g E f args m gl t st pre d ls ro : reachable g0 g -> ledger_module E ->
    calls E f args (mkstore m gl g) (RTrap t st) ->
    g_layers (shost st) = pre ++ d :: ls -> reachable g0 (g_with_tx g d ls ro).

(** the declared maximum supply *)
Definition declared (g : gctx) (n : name) : option Z := match g_ft g n with Some (Some c) => Some c | _ => None end.

(** a chain state from which histories are followed: outside any transaction, and
    every capped token exists *)
Record settled (g : gctx) : Prop := {
  se_view : g_view g = None;
  se_layers : g_layers g = [];
  se_defined : forall n, declared g n <> None -> d_supply (g_db g) n <> None }.

Lemma inv_start g : settled g -> inv (g_db g) (declared g) g.
Proof.
  intros [Hv Hl Hd]. split; [exact Hv| | |rewrite Hl; constructor].
  - intros n c. unfold declared. destruct (g_ft g n) as [[c'|]|]; congruence.
  - split; [exact Hd|]. exists []. split; [reflexivity|]. constructor. split; reflexivity.
Qed.

Lemma inv_tx d0 cap g d ls ro : inv d0 cap g -> explained d0 cap d -> Forall (explained d0 cap) ls ->
  inv d0 cap (g_with_tx g d ls ro).
Proof. intros [a b c e] Hd Hl. split; auto. Qed.

Lemma module_keeps d0 cap E : ledger_module E -> forall n ps h args st,
  ehost E n = Some (ps, h) -> inv d0 cap (shost st) -> keeps_r (inv d0 cap) (inv_trap d0 cap) (h args st).
Proof.
  intros HE n ps h args st Hh Iv. destruct (HE n ps h Hh) as [Hl|Hn].
  - eapply ledger_host_keeps; eauto.
  - specialize (Hn args st). destruct (h args st); cbn [keeps_r]; auto; destruct Hn as (h1 & h2 & h3 & h4).
    + eapply inv_db; [exact Iv| |exact h4|exact h3|exact h2]. rewrite h1. exact (iv_db _ _ _ Iv).
    + unfold inv_trap. rewrite h2. exact (iv_layers _ _ _ Iv).
Qed.

Lemma reachable_inv g0 g : settled g0 -> reachable g0 g -> inv (g_db g0) (declared g0) g.
Proof.
  intro S0. induction 1 as [|g ro Hr IH|g d ls ro Hr IH Hl|g d ls ro Hr IH Hl
                           |g E f args m gl vs st Hr IH HE [f0 Hc]|g E f args m gl t st pre d ls ro Hr IH HE [f0 Hc] Hl].
  - apply inv_start; assumption.
  - apply inv_tx; [exact IH|exact (iv_db _ _ _ IH)|]. constructor; [exact (iv_db _ _ _ IH)|exact (iv_layers _ _ _ IH)].
  - pose proof (iv_layers _ _ _ IH) as F. rewrite Hl in F. inversion F; subst.
    apply inv_tx; [exact IH|exact (iv_db _ _ _ IH)|assumption].
  - pose proof (iv_layers _ _ _ IH) as F. rewrite Hl in F. inversion F; subst. apply inv_tx; assumption.
  - pose proof (invoke_inv E _ _ (inv_inv_trap _ _) (module_keeps _ _ E HE) f0 f args (mkstore m gl g) IH) as K.
    rewrite (Hc f0 (le_n _)) in K. exact K.
  - pose proof (invoke_inv E _ _ (inv_inv_trap _ _) (module_keeps _ _ E HE) f0 f args (mkstore m gl g) IH) as K.
    rewrite (Hc f0 (le_n _)) in K. cbn [keeps_r] in K. unfold inv_trap in K. rewrite Hl in K.
    apply Forall_app in K. destruct K as [_ K]. inversion K; subst. apply inv_tx; assumption.
Qed.

(** ** C37 *)
(** Whatever the chain has been through since a settled state, the tables are what
    the emitted events say, each event having been legal when it happened. *)
Theorem C37_every_history_is_legal : forall g0 g, settled g0 -> reachable g0 g ->
  exists evs, d_events (g_db g) = evs ++ d_events (g_db g0) /\
    history (declared g0) (ledger_of (g_db g0)) evs (ledger_of (g_db g)).
Proof. intros g0 g S R. destruct (reachable_inv g0 g S R) as [_ _ [_ He] _]. exact He. Qed.
Print Assumptions C37_every_history_is_legal.

(** Holdings never go negative and always add up to the supply. *)
Theorem C37_supply_conserved : forall g0 g, settled g0 -> reachable g0 g ->
  conserved (ledger_of (g_db g0)) -> conserved (ledger_of (g_db g)).
Proof.
  intros g0 g S R. destruct (C37_every_history_is_legal g0 g S R) as (evs & _ & Hh). eapply history_conserved; eauto.
Qed.
Print Assumptions C37_supply_conserved.

(** The supply never exceeds the declared maximum, nor 2^128 - 1. *)
Theorem C37_supply_capped : forall g0 g n c, settled g0 -> reachable g0 g ->
  g_ft g0 n = Some (Some c) ->
  l_supply (ledger_of (g_db g0)) n <= c -> l_supply (ledger_of (g_db g)) n <= c.
Proof.
  intros g0 g n c S R Hc. destruct (C37_every_history_is_legal g0 g S R) as (evs & _ & Hh).
  eapply history_cap; [exact Hh|]. unfold declared. rewrite Hc. reflexivity.
Qed.
Print Assumptions C37_supply_capped.
Theorem C37_supply_in_range : forall g0 g n, settled g0 -> reachable g0 g ->
  l_supply (ledger_of (g_db g0)) n < 2 ^ 128 -> l_supply (ledger_of (g_db g)) n < 2 ^ 128.
Proof.
  intros g0 g n S R. destruct (C37_every_history_is_legal g0 g S R) as (evs & _ & Hh). eapply history_range; eauto.
Qed.
Print Assumptions C37_supply_in_range.

(** Nobody's balance shrinks without a burn or transfer event naming them. *)
Theorem C37_debits_are_announced : forall g0 g n p, settled g0 -> reachable g0 g ->
  d_bal (g_db g) n p < d_bal (g_db g0) n p ->
  exists a, In (EvFtBurn n p a) (d_events (g_db g)) \/ exists q, In (EvFtTransfer n p q a) (d_events (g_db g)).
Proof.
  intros g0 g n p S R Hlt. destruct (C37_every_history_is_legal g0 g S R) as (evs & He & Hh). rewrite He.
  destruct (history_debit _ _ _ _ n p Hh Hlt) as (a & [Hi|(q & Hi)]); exists a; [left|right; exists q]; apply in_or_app; auto.
Qed.
Print Assumptions C37_debits_are_announced.

(** ** C38 *)
(** An NFT leaves its owner only through a burn or transfer event naming that
    owner, and reaches a new owner only through a mint or transfer event. *)
Theorem C38_ownership_changes_are_announced : forall g0 g n i p, settled g0 -> reachable g0 g ->
  (d_owner (g_db g0) n i = Some p -> d_owner (g_db g) n i <> Some p ->
   In (EvNftBurn n i p) (d_events (g_db g)) \/ exists q, In (EvNftTransfer n i p q) (d_events (g_db g))) /\
  (d_owner (g_db g0) n i <> Some p -> d_owner (g_db g) n i = Some p ->
   In (EvNftMint n i p) (d_events (g_db g)) \/ exists q, In (EvNftTransfer n i q p) (d_events (g_db g))).
Proof.
  intros g0 g n i p S R. destruct (C37_every_history_is_legal g0 g S R) as (evs & He & Hh). rewrite He. split; intros H1 H2.
  - destruct (history_owner _ _ _ _ n i p Hh H1 H2) as [Hi|(q & Hi)]; [left|right; exists q]; apply in_or_app; auto.
  - destruct (history_gain _ _ _ _ n i p Hh H1 H2) as [Hi|(q & Hi)]; [left|right; exists q]; apply in_or_app; auto.
Qed.
Print Assumptions C38_ownership_changes_are_announced.

(** ** Arguments in memory *)

(** the module imports [f] from the host *)
Definition imports (E : env gctx) (f : string) : Prop := efun E f = None /\ ehost E f = assoc f ledger_host.

(** a token's name, as the compiler interns it *)
Definition name_at (m : mem) (o l : Z) (n : name) : Prop :=
  holds m o n /\ msize m < 2 ^ 31 /\ l = Z.of_nat (length n) /\ is_clarity_name n = true.
(** a principal, as the compiler passes it *)
Definition prin_at (m : mem) (o l : Z) (p : prin) : Prop :=
  prin_ok p /\ holds m o (prin_bytes p) /\ msize m < 2 ^ 31 /\ l = Z.of_nat (length (prin_bytes p)).
(** a value of type [t], stored by the compiler for the host to read *)
Definition value_at (m : mem) (o l : Z) (t : ty) (v : value) : Prop :=
  ty_ok t /\ has_type t v /\ msize m < 2 ^ 31 /\ l = get_type_size t /\
  exists P ws, rep m P t v ws /\ words_at m o ws.

Lemma holds_small m o bs : holds m o bs -> msize m < 2 ^ 31 -> sgn32 o = o /\ sgn32 (Z.of_nat (length bs)) = Z.of_nat (length bs).
Proof.
  intros (H0 & H1 & _) Hm. change (2 ^ 31) with h32 in Hm.
  split; apply sgn32_small; pose proof (Zle_0_nat (length bs)); split; lia.
Qed.
Lemma read_name_at m o l n : name_at m o l n -> read_name m o l = Some n.
Proof.
  intros (H & Hm & -> & Hn). destruct (holds_small _ _ _ H Hm) as [E1 E2]. unfold read_name.
  rewrite E1, E2, (hread_holds _ _ _ H), Hn. reflexivity.
Qed.
Lemma read_prin_at m o l p : prin_at m o l p -> read_prin m o l = Some p.
Proof.
  intros (Hp & H & Hm & ->). destruct (holds_small _ _ _ H Hm) as [E1 _]. unfold read_prin.
  rewrite E1. cbn [read_from_wasm]. rewrite (read_principal_ok m TPrin o p Hp H). reflexivity.
Qed.
Lemma read_arg_at m o l t v : value_at m o l t v -> read_arg m t o l = Some v.
Proof.
  intros (Hok & Ht & Hm & -> & P & ws & Hr & Hw).
  pose proof (holds_small _ _ _ Hw Hm) as [E1 E2].
  pose proof (read_indirect_back m P ltac:(change h32 with (2 ^ 31); lia) t v ws o Hok Hr Ht Hw) as K.
  rewrite (rep_words_len _ _ _ _ _ Hr) in E2.
  unfold read_arg. rewrite E1, E2. exact K.
Qed.
Lemma amount_u128 a : is_u128 a -> amount (a mod 2 ^ 64) (a / 2 ^ 64) = a.
Proof.
  unfold is_u128, amount. intro H. change (2 ^ 64) with m64.
  assert (0 <= a / m64 < m64) by (split; [apply Z.div_pos|apply Z.div_lt_upper_bound]; change m64 with (2 ^ 64); lia).
  rewrite (Z.mod_small (a / m64)), Zmod_mod by lia. rewrite (Z.mul_comm (a / m64)). symmetry. apply Z.div_mod. discriminate.
Qed.

Lemma admits_typed : forall t v, has_type t v -> admits t v = true.
Proof.
  induction t using ty_ind'; intros v Hv; destruct v; cbn in Hv |- *; try contradiction; try reflexivity; auto.
  - destruct Hv as (Hi & _). destruct (list_eq_dec Z.eq_dec _ _); congruence.
  - apply Z.leb_le; tauto.
  - apply Z.leb_le; tauto.
  - apply Z.leb_le; tauto.
  - destruct Hv as [Hl Hf]. apply andb_true_intro. split; [apply Z.leb_le; exact Hl|].
    clear - IHt Hf. apply forallb_forall. rewrite Forall_forall in Hf. auto.
  - revert fs0 Hv. induction H as [|[k t] fs Ht F IH]; intros [|[k' v'] vs] Hv; try contradiction; [reflexivity|].
    cbn in Ht. destruct Hv as (-> & Hv & Hvs). rewrite String.eqb_refl, (Ht _ Hv), (IH _ Hvs). reflexivity.
Qed.

Lemma host_calls (E : env gctx) f ps h args st : imports E f -> assoc f ledger_host = Some (ps, h) ->
  calls E f args st (h args st).
Proof.
  intros [H1 H2] Hh. exists O. intros fu _. unfold invoke, call_func. rewrite H1, H2, Hh. reflexivity.
Qed.

(** ** Results of the token operations *)

(** event [e] has been carried out: the ledger changed as [e] says, [e] was
    emitted, and nothing else changed but the memory budget *)
Definition posted (st : store gctx) (e : event) (cost : Z) (st' : store gctx) : Prop :=
  exists d', st' = mkstore (smem st) (sglob st) (g_with_memory (g_with_db (shost st) d') (g_memory (shost st) - cost)) /\
    applied (ledger_of (g_db (shost st))) e (ledger_of d') /\
    d_events d' = e :: d_events (g_db (shost st)) /\
    d_var d' = d_var (g_db (shost st)) /\ d_map d' = d_map (g_db (shost st)).

(** memory charges: linker.rs 1710-1716, 1829-1835, 2006-2024 *)
Definition cost_mint : Z := 148 + 16.
Definition cost_transfer : Z := 2 * 148 + 2 * 16.

Definition fails (E : env gctx) f args st : Prop := exists st', calls E f args st (RTrap THost st').

Lemma split_mem (st : store gctx) : mkstore (smem st) (sglob st) (shost st) = st.
Proof. destruct st; reflexivity. Qed.

Ltac zdec b := let E := fresh "Z" in destruct b eqn:E;
  [first [apply Z.leb_le in E|apply Z.ltb_lt in E|apply Z.eqb_eq in E]
  |first [apply Z.leb_gt in E|apply Z.ltb_ge in E|apply Z.eqb_neq in E]].

Section Fields.
Variables (g : gctx) (a b : Z) (d d' : db).
Lemma gw1 : g_with_memory (g_with_memory g a) b = g_with_memory g b. Proof. reflexivity. Qed.
Lemma gw2 : g_with_db (g_with_db g d) d' = g_with_db g d'. Proof. reflexivity. Qed.
Lemma gw3 : g_with_db (g_with_memory g a) d = g_with_memory (g_with_db g d) a. Proof. reflexivity. Qed.
Lemma gw4 : g_memory (g_with_memory g a) = a. Proof. reflexivity. Qed.
Lemma gw5 : g_memory (g_with_db g d) = g_memory g. Proof. reflexivity. Qed.
Lemma gw6 : g_db (g_with_memory g a) = g_db g. Proof. reflexivity. Qed.
Lemma gw7 : g_db (g_with_db g d) = d. Proof. reflexivity. Qed.
Lemma gw8 : g_view (g_with_memory g a) = g_view g. Proof. reflexivity. Qed.
Lemma gw9 : g_view (g_with_db g d) = g_view g. Proof. reflexivity. Qed.
End Fields.
Ltac gs C := rewrite ?gw1, ?gw2, ?gw3, ?gw4, ?gw5, ?gw6, ?gw7, ?gw8, ?gw9 in C.

Section Ops.
Variable E : env gctx.

Lemma mint_open no nl n so sl p a st : imports E "stdlib.ft_mint" ->
  name_at (smem st) no nl n -> prin_at (smem st) so sl p -> is_u128 a ->
  calls E "stdlib.ft_mint" ([VI32 no; VI32 nl] ++ u128 a ++ [VI32 so; VI32 sl]) st
    (run_op st (smem st) (op_ft_mint n a p (shost st))).
Proof.
  intros Hi Hn Hp Ha. pose proof (host_calls E "stdlib.ft_mint" _ i_ft_mint
    ([VI32 no; VI32 nl] ++ u128 a ++ [VI32 so; VI32 sl]) st Hi eq_refl) as C.
  unfold u128 in C |- *. cbn [app i_ft_mint] in C |- *. rewrite (read_name_at _ _ _ _ Hn), (read_prin_at _ _ _ _ Hp), (amount_u128 a Ha) in C.
  exact C.
Qed.
Lemma burn_open no nl n so sl p a st : imports E "stdlib.ft_burn" ->
  name_at (smem st) no nl n -> prin_at (smem st) so sl p -> is_u128 a ->
  calls E "stdlib.ft_burn" ([VI32 no; VI32 nl] ++ u128 a ++ [VI32 so; VI32 sl]) st
    (run_op st (smem st) (op_ft_burn n a p (shost st))).
Proof.
  intros Hi Hn Hp Ha. pose proof (host_calls E "stdlib.ft_burn" _ i_ft_burn
    ([VI32 no; VI32 nl] ++ u128 a ++ [VI32 so; VI32 sl]) st Hi eq_refl) as C.
  unfold u128 in C |- *. cbn [app i_ft_burn] in C |- *. rewrite (read_name_at _ _ _ _ Hn), (read_prin_at _ _ _ _ Hp), (amount_u128 a Ha) in C.
  exact C.
Qed.
Lemma transfer_open no nl n so sl p ro rl q a st : imports E "stdlib.ft_transfer" ->
  name_at (smem st) no nl n -> prin_at (smem st) so sl p -> prin_at (smem st) ro rl q -> is_u128 a ->
  calls E "stdlib.ft_transfer" ([VI32 no; VI32 nl] ++ u128 a ++ [VI32 so; VI32 sl; VI32 ro; VI32 rl]) st
    (run_op st (smem st) (op_ft_transfer n a p q (shost st))).
Proof.
  intros Hi Hn Hp Hq Ha. pose proof (host_calls E "stdlib.ft_transfer" _ i_ft_transfer
    ([VI32 no; VI32 nl] ++ u128 a ++ [VI32 so; VI32 sl; VI32 ro; VI32 rl]) st Hi eq_refl) as C.
  unfold u128 in C |- *. cbn [app i_ft_transfer] in C |- *.
  rewrite (read_name_at _ _ _ _ Hn), (read_prin_at _ _ _ _ Hp), (read_prin_at _ _ _ _ Hq), (amount_u128 a Ha) in C.
  exact C.
Qed.

(** [ft-mint?]: (err u1) for zero; an abort when the token is unknown, the supply
    would pass the declared maximum or 2^128-1, or the memory budget is exhausted;
    otherwise (ok true) and exactly the mint *)
Theorem C37_mint : forall no nl n so sl p a st,
  imports E "stdlib.ft_mint" -> name_at (smem st) no nl n -> prin_at (smem st) so sl p -> is_u128 a ->
  g_view (shost st) = None -> d_bal (g_db (shost st)) n p <= l_supply (ledger_of (g_db (shost st))) n ->
  let args := [VI32 no; VI32 nl] ++ u128 a ++ [VI32 so; VI32 sl] in
  let g := shost st in
  (a = 0 -> returns E "stdlib.ft_mint" args st [VI32 0; VI32 0; VI64 1; VI64 0]) /\
  (a <> 0 -> forall s cap, d_supply (g_db g) n = Some s -> g_ft g n = Some cap ->
     s + a < 2 ^ 128 -> (forall c, cap = Some c -> s + a <= c) -> cost_mint <= g_memory g ->
     exists st', calls E "stdlib.ft_mint" args st (RVals [VI32 1; VI32 1; VI64 0; VI64 0] st') /\
       posted st (EvFtMint n p a) cost_mint st') /\
  (a <> 0 -> (g_ft g n = None \/ d_supply (g_db g) n = None \/
     2 ^ 128 <= l_supply (ledger_of (g_db g)) n + a \/ (exists c, g_ft g n = Some (Some c) /\ c < l_supply (ledger_of (g_db g)) n + a) \/
     g_memory g < cost_mint) -> fails E "stdlib.ft_mint" args st).
Proof.
  intros no nl n so sl p a st Hi Hn Hp Ha Hv Hb args g.
  pose proof (mint_open no nl n so sl p a st Hi Hn Hp Ha) as C. fold args in C.
  unfold op_ft_mint, checked_increase_token_supply, get_ft_supply, get_ft_balance, reading, cur, hbind, hget, hopt, hret,
    hfail, hguard, emit, set_ft_balance, db_mod, hmod, add_memory, run_op in C.
  split; [|split].
  - intros ->. cbn [Z.eqb] in C. rewrite split_mem in C. exact C.
  - intros Hne s cap Hs Hc Hr Hcap Hm. unfold g in *.
    destruct (Z.eqb_spec a 0) as [|_]; [contradiction|]. rewrite Hc, Hv in C. cbn iota in C. rewrite Hs in C. cbn iota in C.
    destruct (Z.ltb_spec (s + a) (2 ^ 128)) as [_|]; [|lia].
    assert ((match cap with Some c => s + a <=? c | None => true end) = true) as Ec.
    { destruct cap as [c|]; [apply Z.leb_le, Hcap|]; reflexivity. }
    rewrite Ec in C. cbn iota in C. gs C. rewrite Hv in C. cbn iota in C.
    gs C. cbn [set_supply d_supply d_bal] in C. rewrite nupd_same in C.
    assert (d_bal (g_db (shost st)) n p + a < 2 ^ 128) as Hba.
    { cbn in Hb. rewrite Hs in Hb. lia. }
    destruct (Z.ltb_spec (d_bal (g_db (shost st)) n p + a) (2 ^ 128)) as [_|]; [|lia].
    unfold cost_mint, sz_prin, sz_uint in *. gs C.
    destruct (Z.leb_spec 148 (g_memory (shost st))) as [_|]; [|lia]. gs C.
    destruct (Z.leb_spec 16 (g_memory (shost st) - 148)) as [_|]; [|lia].
    eexists. split; [exact C|]. exists (minted (g_db (shost st)) n p a s). split; [|split; [|auto]].
    + f_equal. gs C. rewrite ?gw1, ?gw2, ?gw3, ?gw4, ?gw5, ?gw6, ?gw7, ?gw1. replace (g_memory (shost st) - 148 - 16) with (g_memory (shost st) - 164) by lia. reflexivity.
    + split; cbn; [intro n'|intros n' p'|reflexivity].
      * unfold nupd, here. destruct (name_eq_dec n' n) as [->|]; [rewrite Hs|]; lia.
      * unfold nupd, pupd, here. destruct (name_eq_dec n' n) as [->|]; [|lia]. destruct (prin_eq_dec p' p) as [->|]; lia.
  - intros Hne Hf. unfold fails, g in *. cbn [ledger_of l_supply] in Hf, Hb.
    destruct (Z.eqb_spec a 0) as [|_]; [contradiction|].
    destruct (g_ft (shost st) n) as [cap|] eqn:Hc; [|eexists; exact C]. rewrite Hv in C. cbn iota in C.
    destruct (d_supply (g_db (shost st)) n) as [s|] eqn:Hs; [|eexists; exact C].
    destruct (Z.ltb_spec (s + a) (2 ^ 128)) as [Hr|]; [|eexists; exact C].
    destruct (match cap with Some c => s + a <=? c | None => true end) eqn:Ec; [|eexists; exact C].
    gs C. rewrite Hv in C. cbn iota in C.
    gs C. cbn [set_supply d_supply d_bal] in C. rewrite nupd_same in C.
    destruct (_ <? 2 ^ 128) eqn:Eb; [|eexists; exact C].
    unfold cost_mint, sz_prin, sz_uint in *. gs C.
    destruct (Z.leb_spec 148 (g_memory (shost st))) as [H1|]; [|eexists; exact C]. gs C.
    destruct (Z.leb_spec 16 (g_memory (shost st) - 148)) as [H2|]; [|eexists; exact C].
    exfalso. destruct Hf as [Hf|[Hf|[Hf|[(c & Hf & Hf')|Hf]]]]; try congruence; try lia.
    assert (cap = Some c) as -> by congruence. apply Z.leb_le in Ec. lia.
Qed.

(** [ft-burn?]: (err u1) for zero or more than the balance; otherwise (ok true) *)
Theorem C37_burn : forall no nl n so sl p a st s,
  imports E "stdlib.ft_burn" -> name_at (smem st) no nl n -> prin_at (smem st) so sl p -> is_u128 a ->
  g_view (shost st) = None -> d_supply (g_db (shost st)) n = Some s -> d_bal (g_db (shost st)) n p <= s ->
  let args := [VI32 no; VI32 nl] ++ u128 a ++ [VI32 so; VI32 sl] in
  let g := shost st in
  (a = 0 \/ d_bal (g_db g) n p < a -> returns E "stdlib.ft_burn" args st [VI32 0; VI32 0; VI64 1; VI64 0]) /\
  (0 < a <= d_bal (g_db g) n p -> cost_mint <= g_memory g ->
     exists st', calls E "stdlib.ft_burn" args st (RVals [VI32 1; VI32 1; VI64 0; VI64 0] st') /\
       posted st (EvFtBurn n p a) cost_mint st') /\
  (0 < a <= d_bal (g_db g) n p -> g_memory g < cost_mint -> fails E "stdlib.ft_burn" args st).
Proof.
  intros no nl n so sl p a st s Hi Hn Hp Ha Hv Hs Hb args g.
  pose proof (burn_open no nl n so sl p a st Hi Hn Hp Ha) as C. fold args in C.
  unfold op_ft_burn, checked_decrease_token_supply, get_ft_supply, get_ft_balance, reading, cur, hbind, hget, hopt, hret,
    hfail, hguard, emit, set_ft_balance, db_mod, hmod, add_memory, run_op in C.
  unfold g in *.
  destruct (Z.eqb_spec a 0) as [->|Hne].
  { rewrite split_mem in C. split; [intros _; exact C|]. split; intros; lia. }
  rewrite Hv in C. cbn iota in C. rewrite Hs in C. cbn iota in C.
  destruct (Z.ltb_spec (d_bal (g_db (shost st)) n p) a) as [Hl|Hl].
  { rewrite split_mem in C. split; [intros _; exact C|]. split; intros; lia. }
  rewrite Hv in C. cbn iota in C. rewrite Hs in C. cbn iota in C.
  destruct (Z.leb_spec a s) as [_|]; [|lia]. gs C.
  split; [intros; lia|split].
  - intros H Hm.
    unfold cost_mint, sz_prin, sz_uint in *. gs C.
    destruct (Z.leb_spec 148 (g_memory (shost st))) as [_|]; [|lia]. gs C.
    destruct (Z.leb_spec 16 (g_memory (shost st) - 148)) as [_|]; [|lia].
    eexists. split; [exact C|]. exists (burned (g_db (shost st)) n p a s). split; [|split; [|auto]].
    + f_equal. gs C. rewrite ?gw1, ?gw2, ?gw3, ?gw4, ?gw5, ?gw6, ?gw7, ?gw1. replace (g_memory (shost st) - 148 - 16) with (g_memory (shost st) - 164) by lia. reflexivity.
    + split; cbn; [intro n'|intros n' p'|reflexivity].
      * unfold nupd, here. destruct (name_eq_dec n' n) as [->|]; [rewrite Hs|]; lia.
      * unfold nupd, pupd, here. destruct (name_eq_dec n' n) as [->|]; [|lia]. destruct (prin_eq_dec p' p) as [->|]; lia.
  - intros H Hm.
    unfold fails, cost_mint, sz_prin, sz_uint in *. gs C.
    destruct (Z.leb_spec 148 (g_memory (shost st))) as [H1|]; [|eexists; exact C]. gs C.
    destruct (Z.leb_spec 16 (g_memory (shost st) - 148)) as [H2|]; [|eexists; exact C]. lia.
Qed.

(** [ft-transfer?]: (err u3) for zero, (err u2) to oneself, (err u1) for more than
    the balance, in that order; otherwise (ok true) *)
Theorem C37_transfer : forall no nl n so sl p ro rl q a st s cap,
  imports E "stdlib.ft_transfer" -> name_at (smem st) no nl n -> prin_at (smem st) so sl p -> prin_at (smem st) ro rl q -> is_u128 a ->
  g_view (shost st) = None -> d_supply (g_db (shost st)) n = Some s -> g_ft (shost st) n = Some cap ->
  let args := [VI32 no; VI32 nl] ++ u128 a ++ [VI32 so; VI32 sl; VI32 ro; VI32 rl] in
  let g := shost st in
  (a = 0 -> returns E "stdlib.ft_transfer" args st [VI32 0; VI32 0; VI64 3; VI64 0]) /\
  (a <> 0 -> p = q -> returns E "stdlib.ft_transfer" args st [VI32 0; VI32 0; VI64 2; VI64 0]) /\
  (a <> 0 -> p <> q -> d_bal (g_db g) n p < a -> returns E "stdlib.ft_transfer" args st [VI32 0; VI32 0; VI64 1; VI64 0]) /\
  (0 < a <= d_bal (g_db g) n p -> p <> q -> d_bal (g_db g) n q + a < 2 ^ 128 -> cost_transfer <= g_memory g ->
     exists st', calls E "stdlib.ft_transfer" args st (RVals [VI32 1; VI32 1; VI64 0; VI64 0] st') /\
       posted st (EvFtTransfer n p q a) cost_transfer st') /\
  (0 < a <= d_bal (g_db g) n p -> p <> q -> 2 ^ 128 <= d_bal (g_db g) n q + a \/ g_memory g < cost_transfer ->
     fails E "stdlib.ft_transfer" args st).
Proof.
  intros no nl n so sl p ro rl q a st s cap Hi Hn Hp Hq Ha Hv Hs Hc args g.
  pose proof (transfer_open no nl n so sl p ro rl q a st Hi Hn Hp Hq Ha) as C. fold args in C.
  unfold op_ft_transfer, get_ft_balance, reading, cur, hbind, hget, hopt, hret,
    hfail, hguard, emit, set_ft_balance, db_mod, hmod, add_memory, run_op in C.
  unfold g in *.
  destruct (Z.eqb_spec a 0) as [->|Hn0].
  { rewrite split_mem in C. split; [intros _; exact C|]. repeat split; intros; lia. }
  split; [intro; contradiction|].
  destruct (prin_eq_dec p q) as [->|Hpq].
  { rewrite split_mem in C. split; [intros _ _; exact C|]. split; [congruence|]. split; congruence. }
  split; [congruence|].
  rewrite Hc, Hv in C. cbn iota in C. rewrite Hs in C. cbn iota in C.
  destruct (Z.ltb_spec (d_bal (g_db (shost st)) n p) a) as [Hl|Hl].
  { rewrite split_mem in C. split; [intros _ _ _; exact C|]. split; intros; lia. }
  rewrite Hv in C. cbn iota in C. rewrite Hs in C. cbn iota in C.
  split; [intros; lia|split].
  - intros H Hne Hr Hm.
    destruct (Z.ltb_spec (d_bal (g_db (shost st)) n q + a) (2 ^ 128)) as [_|]; [|lia].
    unfold cost_transfer, sz_prin, sz_uint in *. gs C.
    destruct (Z.leb_spec 148 (g_memory (shost st))) as [_|]; [|lia]. gs C.
    destruct (Z.leb_spec 148 (g_memory (shost st) - 148)) as [_|]; [|lia]. gs C.
    destruct (Z.leb_spec 16 (g_memory (shost st) - 148 - 148)) as [_|]; [|lia]. gs C.
    destruct (Z.leb_spec 16 (g_memory (shost st) - 148 - 148 - 16)) as [_|]; [|lia]. gs C.
    eexists. split; [exact C|]. exists (moved (g_db (shost st)) n p q a). split; [|split; [|auto]].
    + f_equal. rewrite ?gw1, ?gw2, ?gw3, ?gw4, ?gw5, ?gw6, ?gw7, ?gw1.
      replace (g_memory (shost st) - 148 - 148 - 16 - 16) with (g_memory (shost st) - 328) by lia. reflexivity.
    + split; cbn; [intro n'; lia|intros n' p'|reflexivity].
      unfold nupd, pupd, here. destruct (name_eq_dec n' n) as [->|]; [|lia].
      destruct (name_eq_dec n n); [|congruence].
      destruct (prin_eq_dec p' q) as [->|]; destruct (prin_eq_dec q p); try congruence; try lia.
      destruct (prin_eq_dec p' p) as [->|]; lia.
  - intros H Hne Hf. unfold fails.
    destruct (Z.ltb_spec (d_bal (g_db (shost st)) n q + a) (2 ^ 128)) as [Hr|]; [|eexists; exact C].
    unfold cost_transfer, sz_prin, sz_uint in *. gs C.
    destruct (Z.leb_spec 148 (g_memory (shost st))) as [H1|]; [|eexists; exact C]. gs C.
    destruct (Z.leb_spec 148 (g_memory (shost st) - 148)) as [H2|]; [|eexists; exact C]. gs C.
    destruct (Z.leb_spec 16 (g_memory (shost st) - 148 - 148)) as [H3|]; [|eexists; exact C]. gs C.
    destruct (Z.leb_spec 16 (g_memory (shost st) - 148 - 148 - 16)) as [H4|]; [|eexists; exact C]. lia.
Qed.
End Ops.
Print Assumptions C37_mint.
Print Assumptions C37_burn.
Print Assumptions C37_transfer.

(** ** C38: the NFT operations *)
Section NftOps.
Variable E : env gctx.

Lemma nft_args_at st no nl n ao al t i : name_at (smem st) no nl n -> g_nft (shost st) n = Some t ->
  value_at (smem st) ao al t i -> nft_args st no nl ao al = Some (n, t, i).
Proof.
  intros Hn Ht Hv. unfold nft_args. rewrite (read_name_at _ _ _ _ Hn), Ht, (read_arg_at _ _ _ _ _ Hv). reflexivity.
Qed.

Definition nft_cost (i : value) : Z := 148 + ser_size i.

Lemma nft_mint_open no nl n ao al t i so sl p st : imports E "stdlib.nft_mint" ->
  name_at (smem st) no nl n -> g_nft (shost st) n = Some t -> value_at (smem st) ao al t i -> prin_at (smem st) so sl p ->
  calls E "stdlib.nft_mint" [VI32 no; VI32 nl; VI32 ao; VI32 al; VI32 so; VI32 sl] st
    (run_op st (smem st) (op_nft_mint n t i p (shost st))).
Proof.
  intros Hi Hn Ht Hv Hp. pose proof (host_calls E "stdlib.nft_mint" _ i_nft_mint
    [VI32 no; VI32 nl; VI32 ao; VI32 al; VI32 so; VI32 sl] st Hi eq_refl) as C.
  cbn [i_nft_mint] in C. rewrite (nft_args_at _ _ _ _ _ _ _ _ Hn Ht Hv), (read_prin_at _ _ _ _ Hp) in C. exact C.
Qed.
Lemma nft_burn_open no nl n ao al t i so sl p st : imports E "stdlib.nft_burn" ->
  name_at (smem st) no nl n -> g_nft (shost st) n = Some t -> value_at (smem st) ao al t i -> prin_at (smem st) so sl p ->
  calls E "stdlib.nft_burn" [VI32 no; VI32 nl; VI32 ao; VI32 al; VI32 so; VI32 sl] st
    (run_op st (smem st) (op_nft_burn n t i p (shost st))).
Proof.
  intros Hi Hn Ht Hv Hp. pose proof (host_calls E "stdlib.nft_burn" _ i_nft_burn
    [VI32 no; VI32 nl; VI32 ao; VI32 al; VI32 so; VI32 sl] st Hi eq_refl) as C.
  cbn [i_nft_burn] in C. rewrite (nft_args_at _ _ _ _ _ _ _ _ Hn Ht Hv), (read_prin_at _ _ _ _ Hp) in C. exact C.
Qed.
Lemma nft_transfer_open no nl n ao al t i so sl p ro rl q st : imports E "stdlib.nft_transfer" ->
  name_at (smem st) no nl n -> g_nft (shost st) n = Some t -> value_at (smem st) ao al t i -> prin_at (smem st) so sl p ->
  prin_at (smem st) ro rl q ->
  calls E "stdlib.nft_transfer" [VI32 no; VI32 nl; VI32 ao; VI32 al; VI32 so; VI32 sl; VI32 ro; VI32 rl] st
    (run_op st (smem st) (op_nft_transfer n t i p q (shost st))).
Proof.
  intros Hi Hn Ht Hv Hp Hq. pose proof (host_calls E "stdlib.nft_transfer" _ i_nft_transfer
    [VI32 no; VI32 nl; VI32 ao; VI32 al; VI32 so; VI32 sl; VI32 ro; VI32 rl] st Hi eq_refl) as C.
  cbn [i_nft_transfer] in C. rewrite (nft_args_at _ _ _ _ _ _ _ _ Hn Ht Hv), (read_prin_at _ _ _ _ Hp), (read_prin_at _ _ _ _ Hq) in C. exact C.
Qed.

Ltac nopen C := unfold op_nft_mint, op_nft_burn, op_nft_transfer, get_nft_owner, reading, cur, hbind, hget, hopt, hret,
    hfail, hguard, emit, db_mod, hmod, add_memory, run_op in C.
Ltac owner_applied := split; cbn; [intros; lia|intros; lia|];
  intros n' i'; unfold nupd, vupd; destruct (name_eq_dec n' _) as [->|]; [|reflexivity]; destruct (value_eq_dec i' _) as [->|]; reflexivity.

(** Minting an owned asset returns (err u1) and changes nothing; minting an unowned
    one gives it to the recipient. *)
Theorem C38_mint : forall no nl n ao al t i so sl p st,
  imports E "stdlib.nft_mint" -> name_at (smem st) no nl n -> g_nft (shost st) n = Some t ->
  value_at (smem st) ao al t i -> prin_at (smem st) so sl p -> g_view (shost st) = None ->
  let args := [VI32 no; VI32 nl; VI32 ao; VI32 al; VI32 so; VI32 sl] in
  (forall o, d_owner (g_db (shost st)) n i = Some o -> returns E "stdlib.nft_mint" args st [VI32 0; VI32 0; VI64 1; VI64 0]) /\
  (d_owner (g_db (shost st)) n i = None -> 0 <= ser_size i -> nft_cost i <= g_memory (shost st) ->
     exists b st', calls E "stdlib.nft_mint" args st (RVals [VI32 1; VI32 b; VI64 0; VI64 0] st') /\ b <> 0 /\
       posted st (EvNftMint n i p) (nft_cost i) st') /\
  (d_owner (g_db (shost st)) n i = None -> g_memory (shost st) < nft_cost i -> fails E "stdlib.nft_mint" args st).
Proof.
  intros no nl n ao al t i so sl p st Hi Hn Ht Hv Hp Hw args.
  pose proof (nft_mint_open no nl n ao al t i so sl p st Hi Hn Ht Hv Hp) as C. fold args in C. nopen C.
  destruct Hv as (_ & Hty & _). rewrite (admits_typed t i Hty), Hw in C. cbn iota in C.
  unfold nft_cost, sz_prin, fails in *.
  split; [|split].
  - intros o Ho. rewrite Ho in C. rewrite split_mem in C. exact C.
  - intros Ho Hs Hm. rewrite Ho in C. cbn iota in C. gs C.
    destruct (Z.leb_spec 148 (g_memory (shost st))) as [_|]; [|lia]. gs C.
    destruct (Z.leb_spec (ser_size i) (g_memory (shost st) - 148)) as [_|]; [|lia]. gs C.
    exists 132. eexists. split; [exact C|]. split; [lia|].
    exists (inv_nft (g_db (shost st)) n i (Some p) (EvNftMint n i p)). split; [|split; [owner_applied|auto]].
    f_equal. rewrite ?gw1, ?gw2, ?gw3, ?gw4, ?gw5, ?gw6, ?gw7, ?gw1.
    replace (g_memory (shost st) - 148 - ser_size i) with (g_memory (shost st) - (148 + ser_size i)) by lia. reflexivity.
  - intros Ho Hm. rewrite Ho in C. cbn iota in C. gs C.
    destruct (Z.leb_spec 148 (g_memory (shost st))) as [H1|]; [|eexists; exact C]. gs C.
    destruct (Z.leb_spec (ser_size i) (g_memory (shost st) - 148)) as [H2|]; [|eexists; exact C]. lia.
Qed.

(** Burning needs the asset to exist (err u3) and to belong to the given principal (err u1). *)
Theorem C38_burn : forall no nl n ao al t i so sl p st,
  imports E "stdlib.nft_burn" -> name_at (smem st) no nl n -> g_nft (shost st) n = Some t ->
  value_at (smem st) ao al t i -> prin_at (smem st) so sl p -> g_view (shost st) = None ->
  let args := [VI32 no; VI32 nl; VI32 ao; VI32 al; VI32 so; VI32 sl] in
  (d_owner (g_db (shost st)) n i = None -> returns E "stdlib.nft_burn" args st [VI32 0; VI32 0; VI64 3; VI64 0]) /\
  (forall o, d_owner (g_db (shost st)) n i = Some o -> o <> p ->
     returns E "stdlib.nft_burn" args st [VI32 0; VI32 0; VI64 1; VI64 0]) /\
  (d_owner (g_db (shost st)) n i = Some p -> 0 <= ser_size i -> nft_cost i <= g_memory (shost st) ->
     exists b st', calls E "stdlib.nft_burn" args st (RVals [VI32 1; VI32 b; VI64 0; VI64 0] st') /\ b <> 0 /\
       posted st (EvNftBurn n i p) (nft_cost i) st') /\
  (d_owner (g_db (shost st)) n i = Some p -> g_memory (shost st) < nft_cost i -> fails E "stdlib.nft_burn" args st).
Proof.
  intros no nl n ao al t i so sl p st Hi Hn Ht Hv Hp Hw args.
  pose proof (nft_burn_open no nl n ao al t i so sl p st Hi Hn Ht Hv Hp) as C. fold args in C. nopen C.
  destruct Hv as (_ & Hty & _). rewrite (admits_typed t i Hty), Hw in C. cbn iota in C.
  unfold nft_cost, sz_prin, fails in *.
  split; [|split; [|split]].
  - intros Ho. rewrite Ho in C. rewrite split_mem in C. exact C.
  - intros o Ho Hne. rewrite Ho in C. destruct (prin_eq_dec o p); [contradiction|]. rewrite split_mem in C. exact C.
  - intros Ho Hs Hm. rewrite Ho in C. cbn iota in C. destruct (prin_eq_dec p p); [|congruence]. gs C.
    destruct (Z.leb_spec 148 (g_memory (shost st))) as [_|]; [|lia]. gs C.
    destruct (Z.leb_spec (ser_size i) (g_memory (shost st) - 148)) as [_|]; [|lia]. gs C.
    exists 132. eexists. split; [exact C|]. split; [lia|].
    exists (inv_nft (g_db (shost st)) n i None (EvNftBurn n i p)). split; [|split; [owner_applied|auto]].
    f_equal. rewrite ?gw1, ?gw2, ?gw3, ?gw4, ?gw5, ?gw6, ?gw7, ?gw1.
    replace (g_memory (shost st) - 148 - ser_size i) with (g_memory (shost st) - (148 + ser_size i)) by lia. reflexivity.
  - intros Ho Hm. rewrite Ho in C. cbn iota in C. destruct (prin_eq_dec p p); [|congruence]. gs C.
    destruct (Z.leb_spec 148 (g_memory (shost st))) as [H1|]; [|eexists; exact C]. gs C.
    destruct (Z.leb_spec (ser_size i) (g_memory (shost st) - 148)) as [H2|]; [|eexists; exact C]. lia.
Qed.

(** A transfer needs two different principals (err u2), an existing asset (err u3)
    and its owner as sender (err u1), in that order. *)
Theorem C38_transfer : forall no nl n ao al t i so sl p ro rl q st,
  imports E "stdlib.nft_transfer" -> name_at (smem st) no nl n -> g_nft (shost st) n = Some t ->
  value_at (smem st) ao al t i -> prin_at (smem st) so sl p -> prin_at (smem st) ro rl q -> g_view (shost st) = None ->
  let args := [VI32 no; VI32 nl; VI32 ao; VI32 al; VI32 so; VI32 sl; VI32 ro; VI32 rl] in
  (p = q -> returns E "stdlib.nft_transfer" args st [VI32 0; VI32 0; VI64 2; VI64 0]) /\
  (p <> q -> d_owner (g_db (shost st)) n i = None -> returns E "stdlib.nft_transfer" args st [VI32 0; VI32 0; VI64 3; VI64 0]) /\
  (p <> q -> forall o, d_owner (g_db (shost st)) n i = Some o -> o <> p ->
     returns E "stdlib.nft_transfer" args st [VI32 0; VI32 0; VI64 1; VI64 0]) /\
  (p <> q -> d_owner (g_db (shost st)) n i = Some p -> 0 <= ser_size i -> nft_cost i <= g_memory (shost st) ->
     exists b st', calls E "stdlib.nft_transfer" args st (RVals [VI32 1; VI32 b; VI64 0; VI64 0] st') /\ b <> 0 /\
       posted st (EvNftTransfer n i p q) (nft_cost i) st') /\
  (p <> q -> d_owner (g_db (shost st)) n i = Some p -> g_memory (shost st) < nft_cost i -> fails E "stdlib.nft_transfer" args st).
Proof.
  intros no nl n ao al t i so sl p ro rl q st Hi Hn Ht Hv Hp Hq Hw args.
  pose proof (nft_transfer_open no nl n ao al t i so sl p ro rl q st Hi Hn Ht Hv Hp Hq) as C. fold args in C. nopen C.
  destruct Hv as (_ & Hty & _). rewrite (admits_typed t i Hty) in C. cbn iota in C.
  unfold nft_cost, sz_prin, fails in *.
  destruct (prin_eq_dec p q) as [Hpq|Hpq].
  { rewrite split_mem in C. split; [intros _; exact C|]. repeat split; congruence. }
  split; [congruence|]. rewrite Hw in C. cbn iota in C.
  split; [|split; [|split]].
  - intros _ Ho. rewrite Ho in C. rewrite split_mem in C. exact C.
  - intros _ o Ho Hne. rewrite Ho in C. destruct (prin_eq_dec o p); [contradiction|]. rewrite split_mem in C. exact C.
  - intros _ Ho Hs Hm. rewrite Ho in C. cbn iota in C. destruct (prin_eq_dec p p); [|congruence]. gs C.
    destruct (Z.leb_spec 148 (g_memory (shost st))) as [_|]; [|lia]. gs C.
    destruct (Z.leb_spec (ser_size i) (g_memory (shost st) - 148)) as [_|]; [|lia]. gs C.
    exists 132. eexists. split; [exact C|]. split; [lia|].
    exists (inv_nft (g_db (shost st)) n i (Some q) (EvNftTransfer n i p q)). split; [|split; [owner_applied|auto]].
    f_equal. rewrite ?gw1, ?gw2, ?gw3, ?gw4, ?gw5, ?gw6, ?gw7, ?gw1.
    replace (g_memory (shost st) - 148 - ser_size i) with (g_memory (shost st) - (148 + ser_size i)) by lia. reflexivity.
  - intros _ Ho Hm. rewrite Ho in C. cbn iota in C. destruct (prin_eq_dec p p); [|congruence]. gs C.
    destruct (Z.leb_spec 148 (g_memory (shost st))) as [H1|]; [|eexists; exact C]. gs C.
    destruct (Z.leb_spec (ser_size i) (g_memory (shost st) - 148)) as [H2|]; [|eexists; exact C]. lia.
Qed.
End NftOps.
Print Assumptions C38_mint.
Print Assumptions C38_burn.
Print Assumptions C38_transfer.

(** ** C36 *)
(** A call to one of the contract's own public functions that returns (err ..)
    leaves the chain tables exactly as they were before the call, and one that
    returns (ok ..) keeps exactly the tables the function ended with; the value is
    passed on unchanged and the enclosing savepoints are untouched. The function
    and everything it calls is arbitrary bracketed code. *)
Theorem C36_public_call_partial : forall E f args st tag vs st1 locals ls k,
  bracketed E -> savepoint f = false -> fun_arity E f = Some (length args) ->
  calls E f args (host_to st (begun (shost st) (is_read_only (shost st)))) (RVals (VI32 tag :: vs) st1) ->
  length locals = S (length vs) -> NoDup locals -> Forall (fun n => (n < length ls)%nat) locals ->
  exists ls' st', runs E (local_call_public f locals) (mkcfg ls (rev args ++ k) st) (ONormal (mkcfg ls' (rev (VI32 tag :: vs) ++ k) st')) /\
    (forall n, ~ In n locals -> nth_error ls' n = nth_error ls n) /\
    smem st' = smem st1 /\ sglob st' = sglob st1 /\
    g_db (shost st') = (if tag =? 0 then g_db (shost st) else g_db (shost st1)) /\
    g_layers (shost st') = g_layers (shost st) /\ g_ro (shost st') = g_ro (shost st).
Proof.
  intros E f args st tag vs st1 locals ls k HE Hf Ha Hc L Nd Fl.
  destruct (public_call_exact E HE f args st tag vs st1 locals ls k Hf Ha Hc L Nd Fl) as (ls' & Hls & Hr).
  eexists ls', _. split; [exact Hr|]. split; [exact Hls|].
  destruct (tag =? 0); repeat split.
Qed.
Print Assumptions C36_public_call_partial.

(** A read-only call never changes the tables. *)
Theorem C36_read_only_call_partial : forall E f args st vs st1 ls k,
  bracketed E -> savepoint f = false -> fun_arity E f = Some (length args) ->
  calls E f args (host_to st (begun (shost st) true)) (RVals vs st1) ->
  exists st', runs E (local_call_read_only f) (mkcfg ls (rev args ++ k) st) (ONormal (mkcfg ls (rev vs ++ k) st')) /\
    smem st' = smem st1 /\ sglob st' = sglob st1 /\
    g_db (shost st') = g_db (shost st) /\ g_layers (shost st') = g_layers (shost st) /\ g_ro (shost st') = g_ro (shost st).
Proof.
  intros E f args st vs st1 ls k HE Hf Ha Hc.
  eexists. split; [exact (read_only_call_exact E HE f args st vs st1 ls k Hf Ha Hc)|]. repeat split.
Qed.
Print Assumptions C36_read_only_call_partial.

(** Every function of the module, however deeply it nests calls, closes exactly the
    savepoints it opened. *)
Theorem C36_savepoints_balanced_partial : forall E f args st vs st', bracketed E -> savepoint f = false ->
  calls E f args st (RVals vs st') ->
  g_layers (shost st') = g_layers (shost st) /\ g_ro (shost st') = g_ro (shost st).
Proof.
  intros E f args st vs st' HE Hf [f0 Hc]. pose proof (invoke_saves E HE f0 f args st vs st' Hf (Hc f0 (le_n _))) as K.
  unfold saves in K. split; congruence.
Qed.
Print Assumptions C36_savepoints_balanced_partial.

(** When a function aborts, at any depth, the savepoints that were open before the
    call are still there with the tables they held; the ones it opened itself are
    left on top of them (so restoring the state means going back below those,
    not rolling back once). *)
Theorem C36_abort_keeps_outer_savepoints_partial : forall E f args st t st', bracketed E -> savepoint f = false ->
  calls E f args st (RTrap t st') ->
  exists opened, g_layers (shost st') = opened ++ g_layers (shost st).
Proof.
  intros E f args st t st' HE Hf [f0 Hc]. destruct (invoke_trap E HE f0 f args st t st' Hf (Hc f0 (le_n _))) as (pl & pr & K).
  exists pl. unfold saves in K. cbn [fst snd] in K. congruence.
Qed.
Print Assumptions C36_abort_keeps_outer_savepoints_partial.

(** ** C44: the declared maximum supply *)
(** [define-fungible-token] stores the maximum given in the contract when its low
    64 bits are below 2^63 .. *)
Definition fresh_token (g : gctx) (n : name) : Prop :=
  (exists a, g_an g = Some a) /\ g_view g = None /\ d_supply (g_db g) n = None /\ 1 <= g_memory g.

Lemma define_ft_open E no nl n c st : imports E "stdlib.define_ft" -> name_at (smem st) no nl n -> fresh_token (shost st) n ->
  exists st', calls E "stdlib.define_ft" ([VI32 no; VI32 nl; VI32 1] ++ u128 c) st (RVals [] st') /\
    g_ft (shost st') n = Some (ft_cap 1 (c mod 2 ^ 64) (c / 2 ^ 64)) /\ d_supply (g_db (shost st')) n = Some 0 /\
    (forall n', n' <> n -> g_ft (shost st') n' = g_ft (shost st) n' /\ d_supply (g_db (shost st')) n' = d_supply (g_db (shost st)) n').
Proof.
  intros Hi Hn ((a & Ha) & Hv & Hs & Hm).
  pose proof (host_calls E "stdlib.define_ft" _ i_define_ft ([VI32 no; VI32 nl; VI32 1] ++ u128 c) st Hi eq_refl) as C.
  unfold u128 in C |- *. cbn [app i_define_ft] in C |- *. rewrite (read_name_at _ _ _ _ Hn) in C.
  unfold op_define_ft, initialising, reading, cur, hbind, hget, hopt, hret, hfail, db_mod, hmod, add_memory, run_op in C.
  rewrite Ha in C. cbn iota in C. destruct (Z.leb_spec 1 (g_memory (shost st))) as [_|]; [|lia]. gs C. rewrite Hv in C. cbn iota in C.
  gs C. rewrite Hs in C. cbn iota in C.
  eexists. split; [exact C|]. cbn. unfold nupd. destruct (name_eq_dec n n) as [_|]; [|congruence].
  split; [reflexivity|]. split; [reflexivity|]. intros n' Hne. destruct (name_eq_dec n' n); [congruence|]. auto.
Qed.

Lemma cap_value lo hi : 0 <= lo < m64 -> 0 <= hi < m64 ->
  ft_cap 1 lo hi = Some (if lo <? h64 then hi * m64 + lo else (m64 - 1) * m64 + lo).
Proof.
  intros Hl Hh. unfold ft_cap. cbn [Z.eqb Pos.eqb]. f_equal.
  change (2 ^ 64) with m64.
  assert (forall a b, 0 <= b < m64 -> Z.lor (a * m64) b = a * m64 + b) as L.
  { intros x b Hb. change m64 with (2 ^ 64) in *. apply lor_add; lia. }
  assert (sgn64 hi mod m128 * m64 mod m128 = hi * m64) as ->.
  { rewrite Z.mul_mod_idemp_l by discriminate. unfold sgn64.
    destruct (hi <? h64).
    - apply Z.mod_small. change m128 with (m64 * m64). nia.
    - replace ((hi - m64) * m64) with (hi * m64 + (-1) * m128) by (change m128 with (m64 * m64); ring).
      rewrite Z.mod_add by discriminate. apply Z.mod_small. change m128 with (m64 * m64). nia. }
  unfold sgn64. destruct (Z.ltb_spec lo h64) as [Hlt|Hge].
  - rewrite (Z.mod_small lo) by (change m128 with (m64 * m64); change m64 with (2 ^ 64) in *; nia). apply L. lia.
  - replace ((lo - m64) mod m128) with ((m64 - 1) * m64 + lo).
    2:{ replace (lo - m64) with (((m64 - 1) * m64 + lo) + (-1) * m128) by (change m128 with (m64 * m64); ring).
        rewrite Z.mod_add by discriminate. symmetry. apply Z.mod_small. change m128 with (m64 * m64). nia. }
    rewrite <- (L (m64 - 1) lo) by lia. rewrite Z.lor_assoc. f_equal.
    change m64 with (2 ^ 64). rewrite <- !Z.shiftl_mul_pow2 by lia. rewrite <- Z.shiftl_lor. f_equal.
    change (2 ^ 64 - 1) with (Z.ones 64). rewrite Z.lor_ones_low; [reflexivity|lia|].
    destruct (Z.eq_dec hi 0) as [->|]; [cbn; lia|]. apply Z.log2_lt_pow2; [lia|]. change m64 with (2 ^ 64) in Hh. lia.
Qed.

Theorem C44_declared_maximum_partial : forall E no nl n c st,
  imports E "stdlib.define_ft" -> name_at (smem st) no nl n -> fresh_token (shost st) n -> is_u128 c ->
  c mod 2 ^ 64 < 2 ^ 63 ->
  exists st', calls E "stdlib.define_ft" ([VI32 no; VI32 nl; VI32 1] ++ u128 c) st (RVals [] st') /\
    g_ft (shost st') n = Some (Some c) /\ d_supply (g_db (shost st')) n = Some 0.
Proof.
  intros E no nl n c st Hi Hn Hf Hc Hlo. destruct (define_ft_open E no nl n c st Hi Hn Hf) as (st' & C & Hg & Hs & _).
  exists st'. split; [exact C|]. split; [|exact Hs]. rewrite Hg. f_equal.
  unfold is_u128 in Hc. change (2 ^ 64) with m64 in *. change (2 ^ 63) with h64 in *.
  rewrite cap_value; [|apply Z.mod_pos_bound; reflexivity|].
  2:{ split; [apply Z.div_pos; [lia|reflexivity]|]. apply Z.div_lt_upper_bound; [reflexivity|]. change (m64 * m64) with (2 ^ 128). lia. }
  destruct (Z.ltb_spec (c mod m64) h64) as [_|]; [|lia]. f_equal. rewrite (Z.mul_comm (c / m64)). symmetry. apply Z.div_mod. discriminate.
Qed.
Print Assumptions C44_declared_maximum_partial.

(** .. and for every other maximum stores one that is at least 2^128 - 2^64 instead
    ([supply_lo as u128] sign-extends): such a cap hardly limits anything. *)
Theorem C44_declared_maximum_refuted : forall E no nl n c st,
  imports E "stdlib.define_ft" -> name_at (smem st) no nl n -> fresh_token (shost st) n -> is_u128 c ->
  2 ^ 63 <= c mod 2 ^ 64 -> c < 2 ^ 128 - 2 ^ 64 ->
  exists st' c', calls E "stdlib.define_ft" ([VI32 no; VI32 nl; VI32 1] ++ u128 c) st (RVals [] st') /\
    g_ft (shost st') n = Some (Some c') /\ c < 2 ^ 128 - 2 ^ 64 <= c'.
Proof.
  intros E no nl n c st Hi Hn Hf Hc Hlo Hlt. destruct (define_ft_open E no nl n c st Hi Hn Hf) as (st' & C & Hg & _).
  exists st'. eexists. split; [exact C|]. unfold is_u128 in Hc. change (2 ^ 64) with m64 in *. change (2 ^ 63) with h64 in *.
  rewrite cap_value in Hg; [|apply Z.mod_pos_bound; reflexivity|].
  2:{ split; [apply Z.div_pos; [lia|reflexivity]|]. apply Z.div_lt_upper_bound; [reflexivity|]. change (m64 * m64) with (2 ^ 128). lia. }
  destruct (Z.ltb_spec (c mod m64) h64) as [|_]; [lia|]. split; [exact Hg|]. split; [exact Hlt|].
  pose proof (Z.mod_pos_bound c m64 eq_refl). change (2 ^ 128) with (m64 * m64). lia.
Qed.
Print Assumptions C44_declared_maximum_refuted.

(** ** C45: who is calling *)
(** as-contract: inside, both tx-sender and contract-caller are the contract; after
    the matching exit both are what they were, also when nested. *)
Theorem C45_as_contract_restores : forall g s c, g_sender g = Some s -> g_caller g = Some c ->
  exists g1, op_enter_as_contract g = HOk [] g1 /\ g_sender g1 = Some (g_self g) /\ g_caller g1 = Some (g_self g) /\
  forall g2, g_sender g2 = g_sender g1 -> g_senders g2 = g_senders g1 -> g_caller g2 = g_caller g1 -> g_callers g2 = g_callers g1 ->
  exists g3, op_exit_as_contract g2 = HOk [] g3 /\
    g_sender g3 = Some s /\ g_senders g3 = g_senders g /\ g_caller g3 = Some c /\ g_callers g3 = g_callers g /\
    g_db g3 = g_db g2 /\ g_layers g3 = g_layers g2.
Proof.
  intros g s c Hs Hc. eexists. split; [reflexivity|]. cbn. split; [reflexivity|]. split; [reflexivity|].
  rewrite Hs, Hc. intros g2 E1 E2 E3 E4. unfold op_exit_as_contract, pop_sender, pop_caller, hbind, hget, hput, hret.
  rewrite E1, E2. cbn [g_with_sender g_caller g_callers]. rewrite E3, E4. eexists. split; [reflexivity|]. cbn. auto 10.
Qed.
Print Assumptions C45_as_contract_restores.

(** contract-call? leaves the caller's tx-sender alone ([push_caller] only). *)
Theorem C45_contract_call_keeps_sender : forall E chain co cl fo fl ao al ro rl to tl st vs st',
  efun E "stdlib.contract_call" = None -> ehost E "stdlib.contract_call" = Some (T 10, i_contract_call chain) ->
  calls E "stdlib.contract_call" [VI32 to; VI32 tl; VI32 co; VI32 cl; VI32 fo; VI32 fl; VI32 ao; VI32 al; VI32 ro; VI32 rl] st (RVals vs st') ->
  g_sender (shost st') = g_sender (shost st) /\ g_senders (shost st') = g_senders (shost st).
Proof.
  intros E chain co cl fo fl ao al ro rl to tl st vs st' H1 H2 [f0 Hc]. specialize (Hc f0 (le_n _)).
  unfold invoke, call_func in Hc. rewrite H1, H2 in Hc. cbn [i_contract_call] in Hc. unfold host_err, return_value, op_contract_call in Hc.
  destruct (read_prin _ co cl) as [[v h|v h n]|]; try discriminate.
  destruct (read_name _ fo fl) as [f|]; try discriminate.
  destruct (chain (PCon v h n) f) as [d|]; try discriminate.
  destruct (read_args _ _ _) as [args|]; try discriminate.
  destruct (dp_run d args _) as [r g2|g2]; try discriminate.
  destruct (write_to_wasm _ _ _ _ _ _) as [[[m' ?] ?]|]; try discriminate.
  assert (st' = mkstore m' (sglob st) (g_shared (push_caller (g_self (shost st)) (shost st)) g2)) as -> by congruence.
  cbn. auto.
Qed.
Print Assumptions C45_contract_call_keeps_sender.

(** But contract-caller does not survive a contract-call?: after EVERY call that
    returns, to any contract, it is the contract itself, whoever really called it,
    because the host pushes the caller and never pops it. *)
Theorem C45_contract_caller_refuted : forall E chain co cl fo fl ao al ro rl to tl st vs st',
  efun E "stdlib.contract_call" = None -> ehost E "stdlib.contract_call" = Some (T 10, i_contract_call chain) ->
  calls E "stdlib.contract_call" [VI32 to; VI32 tl; VI32 co; VI32 cl; VI32 fo; VI32 fl; VI32 ao; VI32 al; VI32 ro; VI32 rl] st (RVals vs st') ->
  g_caller (shost st') = Some (g_self (shost st)).
Proof.
  intros E chain co cl fo fl ao al ro rl to tl st vs st' H1 H2 [f0 Hc]. specialize (Hc f0 (le_n _)).
  unfold invoke, call_func in Hc. rewrite H1, H2 in Hc. cbn [i_contract_call] in Hc. unfold host_err, return_value, op_contract_call in Hc.
  destruct (read_prin _ co cl) as [[v h|v h n]|]; try discriminate.
  destruct (read_name _ fo fl) as [f|]; try discriminate.
  destruct (chain (PCon v h n) f) as [d|]; try discriminate.
  destruct (read_args _ _ _) as [args|]; try discriminate.
  destruct (dp_run d args _) as [r g2|g2]; try discriminate.
  destruct (write_to_wasm _ _ _ _ _ _) as [[[m' ?] ?]|]; try discriminate.
  assert (st' = mkstore m' (sglob st) (g_shared (push_caller (g_self (shost st)) (shost st)) g2)) as -> by congruence.
  reflexivity.
Qed.
Print Assumptions C45_contract_caller_refuted.

(** ** Concrete cases *)
Definition tok : name := [116; 111; 107].
Definition alice := PStd 26 (repeat 1 20).
Definition bob := PStd 26 (repeat 2 20).
Definition self := PCon 26 (repeat 3 20) [97; 98].
Definition no_db : db := mkdb (fun _ => None) (fun _ _ => 0) (fun _ _ => None) (fun _ => None) (fun _ _ => None) [].
Definition db0 : db := set_supply no_db tok 0.
Definition g0 : gctx := mkg self None (nupd (fun _ => None) tok (Some (Some 1000))) (nupd (fun _ => None) tok (Some TUInt))
  (fun _ => None) (fun _ => None) db0 [] [] (fun _ => None) None [] (Some alice) [] (Some alice) [] 100000.
(** name at 0, alice at 100, bob at 200, the NFT identifier u7 at 300 *)
Definition m0 : mem := write_bytes (write_bytes (write_bytes (write_bytes (blank 65536) 0 tok) 100 (prin_bytes alice)) 200 (prin_bytes bob)) 300 [7].
Definition E0 : env gctx := mkenv (fun _ => None) (fun f => assoc f ledger_host) [].
Definition st0 : store gctx := mkstore m0 [] g0.

Example settled0 : settled g0.
Proof.
  split; [reflexivity|reflexivity|]. intros n. cbn. unfold declared, g0. cbn. unfold nupd.
  destruct (name_eq_dec n tok); [discriminate|]. congruence.
Qed.
Example conserved0 : conserved (ledger_of (g_db g0)).
Proof.
  intro n. split; [intro; cbn; lia|]. exists []. split; [constructor|]. split; [intros p Hp; cbn in Hp; congruence|].
  cbn. unfold nupd. destruct (name_eq_dec n tok); reflexivity.
Qed.
Example module0 : ledger_module E0.
Proof. intros n ps h Hh. left. exact Hh. Qed.
Example at0 : name_at m0 0 3 tok /\ prin_at m0 100 22 alice /\ prin_at m0 200 22 bob /\ value_at m0 300 16 TUInt (CUInt 7).
Proof.
  assert (msize m0 < 2 ^ 31) as Hm by reflexivity.
  split; [|split; [|split]].
  - split; [|auto]. split; [lia|]. split; [cbn; lia|vm_compute; reflexivity].
  - split; [|split; [|auto]].
    + split; [lia|]. split; [reflexivity|]. repeat constructor; lia.
    + split; [lia|]. split; [cbn; lia|vm_compute; reflexivity].
  - split; [|split; [|auto]].
    + split; [lia|]. split; [reflexivity|]. repeat constructor; lia.
    + split; [lia|]. split; [cbn; lia|vm_compute; reflexivity].
  - split; [exact Logic.I|]. split; [cbn; lia|]. split; [exact Hm|]. split; [reflexivity|].
    exists (fun _ => True). eexists. split; [reflexivity|]. split; [lia|]. split; [cbn; lia|vm_compute; reflexivity].
Qed.

(** mint 5 to alice, 3 of them to bob, bob burns 1 *)
Definition then_ (f : string) (args : list val) (r : result gctx) : result gctx :=
  match r with RVals _ st => invoke E0 3 f args st | r => r end.
Definition mint5 := invoke E0 3 "stdlib.ft_mint" ([VI32 0; VI32 3] ++ u128 5 ++ [VI32 100; VI32 22]) st0.
Definition send3 := then_ "stdlib.ft_transfer" ([VI32 0; VI32 3] ++ u128 3 ++ [VI32 100; VI32 22; VI32 200; VI32 22]) mint5.
Definition burn1 := then_ "stdlib.ft_burn" ([VI32 0; VI32 3] ++ u128 1 ++ [VI32 200; VI32 22]) send3.
Example tokens_move : match burn1 with
  | RVals vs st => (vs, d_supply (g_db (shost st)) tok, d_bal (g_db (shost st)) tok alice, d_bal (g_db (shost st)) tok bob, d_events (g_db (shost st))) =
      ([VI32 1; VI32 1; VI64 0; VI64 0], Some 4, 2, 2, [EvFtBurn tok bob 1; EvFtTransfer tok alice bob 3; EvFtMint tok alice 5])
  | _ => False end.
Proof. vm_compute. reflexivity. Qed.
Example over_cap : match then_ "stdlib.ft_mint" ([VI32 0; VI32 3] ++ u128 996 ++ [VI32 100; VI32 22]) mint5 with RTrap THost _ => True | _ => False end.
Proof. vm_compute. exact Logic.I. Qed.
Example nft_moves :
  match then_ "stdlib.nft_transfer" [VI32 0; VI32 3; VI32 300; VI32 16; VI32 100; VI32 22; VI32 200; VI32 22]
        (invoke E0 3 "stdlib.nft_mint" [VI32 0; VI32 3; VI32 300; VI32 16; VI32 100; VI32 22] st0) with
  | RVals vs st => (vs, d_owner (g_db (shost st)) tok (CUInt 7)) = ([VI32 1; VI32 132; VI64 0; VI64 0], Some bob)
  | _ => False end.
Proof. vm_compute. reflexivity. Qed.

(** a module with a public function that mints 5 and returns its argument as the
    tag, and one that calls it *)
Definition f_pay : func := mkfunc [T32] [] [T32; T64; T64]
  [Const (VI32 0); Const (VI32 3); Const (VI64 5); Const (VI64 0); Const (VI32 100); Const (VI32 22); Call "stdlib.ft_mint"; Drop; Drop; Drop; Drop;
   LGet 0; Const (VI64 8); Const (VI64 0)].
Definition f_outer : func := mkfunc [T32] [T32; T64; T64] [T32; T64; T64]
  ([LGet 0] ++ local_call_public "pay" [1; 2; 3]%nat).
Definition E1 : env gctx := mkenv (fun n => if String.eqb n "pay" then Some f_pay else if String.eqb n "outer" then Some f_outer else None)
  (fun f => assoc f ledger_host) [].
Example bracketed1 : bracketed E1.
Proof.
  apply bracketed_of; [|intros f []|reflexivity].
  intros f fn. cbn. destruct (String.eqb_spec f "pay") as [->|]; [|destruct (String.eqb_spec f "outer") as [->|]; [|discriminate]];
  intro Hf; (assert (fn = f_pay) as -> by congruence) || (assert (fn = f_outer) as -> by congruence); (split; [|reflexivity]).
  - repeat (apply wb_plain; [cbn; (exact Logic.I || reflexivity)|]). constructor.
  - change (fbody f_outer) with (LGet 0 :: local_call_public "pay" [1; 2; 3]%nat ++ []). apply wb_plain; [exact Logic.I|].
    apply wb_public; [reflexivity|constructor].
Qed.
Example paid_then_undone :
  match invoke E1 9 "outer" [VI32 0] st0, invoke E1 9 "outer" [VI32 1] st0 with
  | RVals v1 s1, RVals v2 s2 =>
      v1 = [VI32 0; VI64 8; VI64 0] /\ d_bal (g_db (shost s1)) tok alice = 0 /\ d_events (g_db (shost s1)) = [] /\
      v2 = [VI32 1; VI64 8; VI64 0] /\ d_bal (g_db (shost s2)) tok alice = 5 /\ g_layers (shost s2) = []
  | _, _ => False
  end.
Proof. vm_compute. auto 10. Qed.
(** an abort inside leaves one savepoint above the outer ones *)
Example abort_leaves_savepoint :
  match invoke E1 9 "outer" [VI32 1] (mkstore m0 [] (g_with_memory g0 10)) with
  | RTrap THost s => length (g_layers (shost s)) = 1%nat
  | _ => False
  end.
Proof. vm_compute. reflexivity. Qed.

(** a maximum of 10^19 becomes more than 3.4 * 10^38 *)
Example cap_lost :
  match invoke E0 3 "stdlib.define_ft" ([VI32 0; VI32 3; VI32 1] ++ u128 10000000000000000000)
      (mkstore m0 [] (mkg self (Some (mkan (fun _ => None) (fun _ => None) (fun _ => None))) (fun _ => None) (fun _ => None)
         (fun _ => None) (fun _ => None) no_db [] [] (fun _ => None) None [] (Some alice) [] (Some alice) [] 100000)) with
  | RVals _ st => g_ft (shost st) tok = Some (Some 340282366920938463454927863358058659840)
  | _ => False
  end.
Proof. vm_compute. reflexivity. Qed.
