(** * C61: programs act on the contract's tables as Clarity says *)
From Coq Require Import ZArith String List Bool Lia.
Import ListNotations.
From Verif Require Import Wasm Std StdEnv WasmLogic WasmTac Spec Mem MemFacts Bytes SpecBytes SpecUtf8 Clar Codec Rep RepFacts ArgProofs Emit Equal
  Ledger SpecLedger LedgerProofs PropLedger PropStore Ast SpecLang Lang Typing LangFacts LangBase LangCall LangPrim LangMain LangPlain LangTotal PropLang PropLang2 SpecChain LangHost.
Open Scope string_scope.
Open Scope list_scope.
Open Scope Z_scope.

(** ** What [ledger_op] says, in terms of the tables before and after *)
(** the tables became [d'] and [cost] of the memory budget was spent *)
Definition paid (g : gctx) (d' : db) (cost : Z) (g' : gctx) : Prop := g' = g_with_memory (g_with_db g d') (g_memory g - cost) /\ cost <= g_memory g.
(** token event [e] happened *)
Definition happened (g g' : gctx) (e : event) (cost : Z) : Prop := exists d', paid g d' cost g' /\
  applied (ledger_of (g_db g)) e (ledger_of d') /\ d_events d' = e :: d_events (g_db g) /\ d_var d' = d_var (g_db g) /\ d_map d' = d_map (g_db g).
Definition does (w : prim) (vs : list value) (g : gctx) (v : value) (g' : gctx) : Prop :=
  let d := g_db g in
  let n := prim_name w in
  match w with
  | PVarGet _ _ t => vs = [] /\ g' = g /\ d_var d n = Some v
  | PVarSet _ _ t => exists x d', vs = [x] /\ v = CBool true /\ g' = g_with_db g d' /\ var_written d d' n x
  | PMapGet _ _ _ _ => exists k, vs = [k] /\ g' = g /\ v = match d_map d n k with Some x => CSome x | None => CNone end
  | PMapSet _ _ _ _ => exists k x d', vs = [k; x] /\ v = CBool true /\ map_written d d' n k (Some x) /\ paid g d' (entry_cost k x) g' /\ is_read_only g = false
  | PMapInsert _ _ _ _ => exists k x d', vs = [k; x] /\ paid g d' (entry_cost k x) g' /\ is_read_only g = false /\
      (d_map d n k = None /\ v = CBool true /\ map_written d d' n k (Some x) \/ d_map d n k <> None /\ v = CBool false /\ d' = d)
  | PMapDelete _ _ _ _ => exists k d', vs = [k] /\ paid g d' (ser_size k) g' /\ is_read_only g = false /\
      (d_map d n k <> None /\ v = CBool true /\ map_written d d' n k None \/ d_map d n k = None /\ v = CBool false /\ d' = d)
  | PFtSupply _ _ => exists s, vs = [] /\ g' = g /\ d_supply d n = Some s /\ v = CUInt s
  | PFtBalance _ _ => exists p, vs = [CPrin p] /\ g' = g /\ v = CUInt (d_bal d n p)
  | PFtMint _ _ => exists a p, vs = [CUInt a; CPrin p] /\
      (a = 0 /\ v = CErr (CUInt 1) /\ g' = g \/
       a <> 0 /\ v = COk (CBool true) /\ happened g g' (EvFtMint n p a) (148 + 16) /\
         exists s cap, d_supply d n = Some s /\ g_ft g n = Some cap /\ s + a < 2 ^ 128 /\ forall c, cap = Some c -> s + a <= c)
  | PFtBurn _ _ => exists a p, vs = [CUInt a; CPrin p] /\
      ((a = 0 \/ d_bal d n p < a) /\ v = CErr (CUInt 1) /\ g' = g \/
       a <> 0 /\ a <= d_bal d n p /\ v = COk (CBool true) /\ happened g g' (EvFtBurn n p a) (148 + 16))
  | PFtTransfer _ _ => exists a p q, vs = [CUInt a; CPrin p; CPrin q] /\
      (a = 0 /\ v = CErr (CUInt 3) /\ g' = g \/ a <> 0 /\ p = q /\ v = CErr (CUInt 2) /\ g' = g \/
       a <> 0 /\ p <> q /\ d_bal d n p < a /\ v = CErr (CUInt 1) /\ g' = g \/
       a <> 0 /\ p <> q /\ a <= d_bal d n p /\ v = COk (CBool true) /\ happened g g' (EvFtTransfer n p q a) (2 * 148 + 2 * 16))
  | PTxSender => exists p, vs = [] /\ g' = g /\ g_sender g = Some p /\ v = CPrin p
  | PContractCaller => exists p, vs = [] /\ g' = g /\ g_caller g = Some p /\ v = CPrin p
  end.

Lemma spent cost v d g v' g' : spending cost v d g = Some (Done v' g') -> v' = v /\ paid g d cost g'.
Proof.
  unfold spending, refuse. destruct (Z.leb_spec cost (g_memory g)); intros H1; [|discriminate]. injection H1 as <- <-. split; [reflexivity|]. split; [reflexivity|assumption].
Qed.
Lemma who_is o g v g' : ledger_who o g = Some (Done v g') -> exists p, o = Some p /\ g' = g /\ v = CPrin p.
Proof. unfold ledger_who, refuse. destruct o as [p|]; [|discriminate]. destruct (has_type_dec _ _); [|discriminate]. intros H. injection H as <- <-. eauto. Qed.
Theorem C61_words_do_what_clarity_says : forall w vs g v g', ledger_op w vs g = Some (Done v g') -> does w vs g v g'.
Proof.
  intros w vs g v g' H.
  assert (HW : (exists p, ledger_op w vs g = ledger_who p g /\ vs = [] /\ (w = PTxSender /\ p = g_sender g \/ w = PContractCaller /\ p = g_caller g)) \/ ledger_op w vs g = ledger_word w vs g).
  { destruct w; try (right; reflexivity); (destruct vs; [left|right; reflexivity]); eexists; (split; [reflexivity|split; [reflexivity|]]); auto. }
  destruct HW as [(p & Hp & -> & Hw)|Hp]; rewrite Hp in H; clear Hp.
  { apply who_is in H as (q & Hq & -> & ->). destruct Hw as [[-> ->]|[-> ->]]; exists q; auto. }
  unfold ledger_word, refuse in H. destruct (g_view g); [discriminate H|]. cbn [is_some] in H. destruct (negb _); [discriminate H|].
  destruct w as [n o t|n o t|n o kt vt|n o kt vt|n o kt vt|n o kt vt|n o|n o|n o|n o|n o| |]; cbn [prim_name does] in H |- *; try discriminate H.
  - destruct vs; [|discriminate H]. destruct (g_vars g n); [|discriminate H]. destruct (d_var (g_db g) n) as [x|]; [|discriminate H]. destruct (ty_eq_dec _ _); [|discriminate H]. destruct (has_type_dec _ _); [|discriminate H].
    injection H as <- <-. auto.
  - destruct vs as [|x [|]]; try discriminate H. destruct (g_vars g n); [|discriminate H]. destruct (ty_eq_dec _ _); [|discriminate H]. injection H as <- <-.
    exists x, (set_var (g_db g) n x). split; [reflexivity|]. split; [reflexivity|]. split; [reflexivity|apply set_var_written].
  - destruct vs as [|k [|]]; try discriminate H. destruct (g_maps g n) as [[? ?]|]; [|discriminate H]. destruct (ty_eq_dec _ _); [|discriminate H]. destruct (ty_eq_dec _ _); [|discriminate H].
    exists k. split; [reflexivity|]. destruct (d_map (g_db g) n k) as [x|]; [destruct (has_type_dec _ _); [|discriminate H]|]; injection H as <- <-; auto.
  - destruct vs as [|k [|x [|]]]; try discriminate H. destruct (is_read_only g); [discriminate H|]. destruct (g_maps g n) as [[? ?]|]; [|discriminate H]. destruct (ty_eq_dec _ _); [|discriminate H]. destruct (ty_eq_dec _ _); [|discriminate H].
    apply spent in H as (-> & Hp). exists k, x, (set_map (g_db g) n k (Some x)). split; [reflexivity|]. split; [reflexivity|]. split; [apply set_map_written|]. split; [exact Hp|reflexivity].
  - destruct vs as [|k [|x [|]]]; try discriminate H. destruct (is_read_only g); [discriminate H|]. destruct (g_maps g n) as [[? ?]|]; [|discriminate H]. destruct (ty_eq_dec _ _); [|discriminate H]. destruct (ty_eq_dec _ _); [|discriminate H].
    destruct (d_map (g_db g) n k) as [y|] eqn:Hk; apply spent in H as (-> & Hp).
    + exists k, x, (g_db g). split; [reflexivity|]. split; [exact Hp|]. split; [reflexivity|]. right. split; [rewrite Hk; discriminate|]. auto.
    + exists k, x, (set_map (g_db g) n k (Some x)). split; [reflexivity|]. split; [exact Hp|]. split; [reflexivity|]. left. split; [exact Hk|]. split; [reflexivity|apply set_map_written].
  - destruct vs as [|k [|]]; try discriminate H. destruct (is_read_only g); [discriminate H|]. destruct (g_maps g n) as [[? ?]|]; [|discriminate H]. destruct (ty_eq_dec _ _); [|discriminate H].
    destruct (d_map (g_db g) n k) as [y|] eqn:Hk; apply spent in H as (-> & Hp).
    + exists k, (set_map (g_db g) n k None). split; [reflexivity|]. split; [exact Hp|]. split; [reflexivity|]. left. split; [rewrite Hk; discriminate|]. split; [reflexivity|apply set_map_written].
    + exists k, (g_db g). split; [reflexivity|]. split; [exact Hp|]. split; [reflexivity|]. right. auto.
  - destruct vs; [|discriminate H]. destruct (d_supply (g_db g) n) as [s|]; [|discriminate H]. destruct (u_ok s); [|discriminate H]. injection H as <- <-. exists s. auto.
  - destruct vs as [|[| | |p| | | | | | | | | |] [|]]; try discriminate H. destruct (g_ft g n); [|discriminate H]. destruct (d_supply (g_db g) n) as [s|]; [|discriminate H]. destruct (u_ok _); [|discriminate H]. injection H as <- <-. exists p. auto.
  - destruct vs as [|[|a| | | | | | | | | | | |] [|[| | |p| | | | | | | | | |] [|]]]; try discriminate H. exists a, p. split; [reflexivity|].
    destruct (Z.eqb_spec a 0) as [->|Ha]; [injection H as <- <-; left; auto|]. right. split; [exact Ha|].
    destruct (g_ft g n) as [cap|]; [|discriminate H]. destruct (d_supply (g_db g) n) as [s|] eqn:Hs; [|discriminate H].
    destruct (Z.ltb_spec (s + a) (2 ^ 128)) as [H1|]; [|discriminate H]. destruct (match cap with Some c => s + a <=? c | None => true end) eqn:H2; [|discriminate H]. destruct (d_bal (g_db g) n p + a <? 2 ^ 128); [|discriminate H]. cbn [andb] in H.
    apply spent in H as (-> & Hp). split; [reflexivity|]. split.
    + exists (after_mint (g_db g) n p a s). split; [exact Hp|]. split; [|auto]. split; cbn; [intro n'|intros n' p'|reflexivity]; unfold nupd, pupd, here.
      * destruct (name_eq_dec n' n) as [->|]; [rewrite Hs|]; lia.
      * destruct (name_eq_dec n' n) as [->|]; [|lia]. destruct (prin_eq_dec p' p) as [->|]; lia.
    + exists s, cap. split; [reflexivity|]. split; [reflexivity|]. split; [exact H1|]. intros c ->. apply Z.leb_le. exact H2.
  - destruct vs as [|[|a| | | | | | | | | | | |] [|[| | |p| | | | | | | | | |] [|]]]; try discriminate H. exists a, p. split; [reflexivity|].
    destruct (Z.eqb_spec a 0) as [->|Ha]; [injection H as <- <-; left; auto|].
    destruct (d_supply (g_db g) n) as [s|] eqn:Hs; [|discriminate H]. destruct (Z.ltb_spec (d_bal (g_db g) n p) a) as [H1|H1]; [injection H as <- <-; left; auto|].
    destruct (a <=? s); [|discriminate H]. apply spent in H as (-> & Hp). right. split; [exact Ha|]. split; [exact H1|]. split; [reflexivity|].
    exists (after_burn (g_db g) n p a s). split; [exact Hp|]. split; [|auto]. split; cbn; [intro n'|intros n' p'|reflexivity]; unfold nupd, pupd, here.
    + destruct (name_eq_dec n' n) as [->|]; [rewrite Hs|]; lia.
    + destruct (name_eq_dec n' n) as [->|]; [|lia]. destruct (prin_eq_dec p' p) as [->|]; lia.
  - destruct vs as [|[|a| | | | | | | | | | | |] [|[| | |p| | | | | | | | | |] [|[| | |q| | | | | | | | | |] [|]]]]; try discriminate H. exists a, p, q. split; [reflexivity|].
    destruct (Z.eqb_spec a 0) as [->|Ha]; [injection H as <- <-; left; auto|]. right. destruct (prin_eq_dec p q) as [->|Hne]; [injection H as <- <-; left; auto|]. right.
    destruct (g_ft g n); [|discriminate H]. destruct (d_supply (g_db g) n) as [s|] eqn:Hs; [|discriminate H]. destruct (Z.ltb_spec (d_bal (g_db g) n p) a) as [H1|H1]; [injection H as <- <-; left; auto 6|]. right.
    destruct (_ <? _); [|discriminate H]. apply spent in H as (-> & Hp). split; [exact Ha|]. split; [exact Hne|]. split; [exact H1|]. split; [reflexivity|].
    exists (after_transfer (g_db g) n p q a). split; [exact Hp|]. split; [|auto]. split; cbn; [intro n'|intros n' p'|reflexivity]; unfold nupd, pupd, here.
    + lia.
    + destruct (name_eq_dec n n) as [_|]; [|contradiction]. destruct (name_eq_dec n' n) as [->|]; [|lia]. destruct (prin_eq_dec p' q) as [->|]; [destruct (prin_eq_dec q p); [congruence|lia]|]. destruct (name_eq_dec n n) as [_|]; [|contradiction]. destruct (prin_eq_dec p' p) as [->|]; lia.
Qed.
Print Assumptions C61_words_do_what_clarity_says.

(** ** C61 *)
(** For every well-typed program with these words anywhere in it, linked to the host
    functions of linker.rs as modelled in Ledger.v: wherever the strict evaluator yields
    a result on the contract's tables, so does the reference evaluator, and the compiled
    function returns that value and leaves exactly those tables ([behaves]), or traps. *)
Theorem C61_programs_act_on_tables_partial : forall host ds f ts tr vs ws (st : store gctx) sp rs,
  wt_prog ds = true -> own_names ds -> serves (module_env host ds) -> ready ds st sp ->
  assoc f (prog_sig ds) = Some (ts, tr) -> Forall2 has_type ts vs -> rep_list (smem st) (fun a => a < sp) ts vs ws ->
  run_defs (CH := ledger_chain) true ds f vs (shost st) = Some rs ->
  run_defs (CH := ledger_chain) false ds f vs (shost st) = Some rs /\ behaves (module_env host ds) f ws st sp tr rs.
Proof.
  intros host ds f ts tr vs ws st sp rs H1 H2 H3 H4 H5 H6 H7 H8. eapply C46_compiled_programs_run_as_evaluated_partial; try eassumption. apply ledger_ok. exact H3.
Qed.
Print Assumptions C61_programs_act_on_tables_partial.

(** ** Without a condition on the evaluator *)
(** tables that hold values of their declared types *)
Record typed_tables (g : gctx) : Prop := {
  tt_now : g_view g = None;
  tt_var : forall n t, g_vars g n = Some t -> exists v, d_var (g_db g) n = Some v /\ has_type t v;
  tt_map : forall n kt vt k v, g_maps g n = Some (kt, vt) -> d_map (g_db g) n k = Some v -> has_type vt v;
  tt_supply : forall n s, d_supply (g_db g) n = Some s -> is_u128 s;
  tt_bal : forall n p, is_u128 (d_bal (g_db g) n p) }.
(** declared as in [g0], with typed tables *)
Definition tables_like (g0 g : gctx) : Prop := typed_tables g /\ g_vars g = g_vars g0 /\ g_maps g = g_maps g0 /\ g_ft g = g_ft g0.
(** the word is compiled for the declared types *)
Definition as_declared (g : gctx) (w : prim) : Prop :=
  let n := prim_name w in
  match w with
  | PVarGet _ _ t | PVarSet _ _ t => g_vars g n = Some t
  | PMapGet _ _ kt vt | PMapSet _ _ kt vt | PMapInsert _ _ kt vt | PMapDelete _ _ kt vt => g_maps g n = Some (kt, vt)
  | _ => True
  end.
(** the principals the words tell are well-formed, and so are the remembered tables *)
Record framed (g : gctx) : Prop := {
  fr_layers : Forall (fun d => typed_tables (g_with_db g d)) (g_layers g);
  fr_self : prin_ok (g_self g);
  fr_sender : forall p, g_sender g = Some p -> prin_ok p;
  fr_caller : forall p, g_caller g = Some p -> prin_ok p;
  fr_senders : Forall prin_ok (g_senders g) /\ (g_sender g = None -> g_senders g = []);
  fr_callers : Forall prin_ok (g_callers g) /\ (g_caller g = None -> g_callers g = []) }.
(** what a call to a function may not change for its caller: the remembered tables,
    whether writing is allowed, the sender and the caller *)
Definition frame (g : gctx) := (g_layers g, g_ro g, (g_sender g, g_senders g), (g_caller g, g_callers g)).

Lemma like_paid g0 g d cost : tables_like g0 g -> typed_tables (g_with_db g d) -> tables_like g0 (g_with_memory (g_with_db g d) (g_memory g - cost)).
Proof. intros (_ & H1 & H2 & H3) [T1 T2 T3 T4 T5]. split; [split; assumption|]. auto. Qed.
Lemma spending_like g0 g cost v d t : tables_like g0 g -> typed_tables (g_with_db g d) -> has_type t v ->
  exists rs, spending cost v d g = Some rs /\ match rs with Done v h' => has_type t v /\ tables_like g0 h' | Early _ _ => False | Abort _ => True end.
Proof.
  intros Hg Hd Hv. unfold spending, refuse. destruct (_ <=? _); eexists; (split; [reflexivity|]); [|exact I]. split; [exact Hv|apply like_paid; assumption].
Qed.
Lemma typed_set_map g n k o kt vt : typed_tables g -> g_maps g n = Some (kt, vt) -> (forall v, o = Some v -> has_type vt v) -> typed_tables (g_with_db g (set_map (g_db g) n k o)).
Proof.
  intros [T1 T2 T3 T4 T5] Hn Ho. split; auto. cbn. intros n' kt' vt' k' v' Hm. unfold nupd, vupd. destruct (name_eq_dec n' n) as [->|]; [|apply T3 with (kt := kt'); exact Hm].
  assert (vt' = vt) by congruence. subst vt'. destruct (value_eq_dec k' k); [apply Ho|apply T3 with (kt := kt'); exact Hm].
Qed.
Lemma like_self g0 g : tables_like g0 g -> typed_tables (g_with_db g (g_db g)).
Proof. intros (H & _). rewrite with_db_self. exact H. Qed.
Lemma typed_bal g n p b : typed_tables g -> is_u128 b -> typed_tables (g_with_db g (set_bal (g_db g) n p b)).
Proof.
  intros [T1 T2 T3 T4 T5] Hb. split; auto. cbn. intros n' p'. unfold nupd, pupd. destruct (name_eq_dec n' n) as [->|]; [|apply T5]. destruct (prin_eq_dec p' p); [exact Hb|apply T5].
Qed.
Lemma typed_supply g n s : typed_tables g -> is_u128 s -> typed_tables (g_with_db g (set_supply (g_db g) n s)).
Proof. intros [T1 T2 T3 T4 T5] Hb. split; auto. cbn. intros n' s'. unfold nupd. destruct (name_eq_dec n' n) as [->|]; [congruence|apply T4]. Qed.
Lemma typed_event g e : typed_tables g -> typed_tables (g_with_db g (add_event (g_db g) e)).
Proof. intros [T1 T2 T3 T4 T5]. split; auto. Qed.

Lemma who_like g0 g o t : tables_like g0 g -> (forall p, o = Some p -> prin_ok p) -> t = TPrin ->
  exists rs, ledger_who o g = Some rs /\ match rs with Done v h' => has_type t v /\ tables_like g0 h' | Early _ _ => False | Abort _ => True end.
Proof.
  intros Hg Ho ->. unfold ledger_who, refuse. destruct o as [p|]; [|eexists; split; [reflexivity|exact I]].
  destruct (has_type_dec TPrin (CPrin p)) as [Hp|Hp]; [|exfalso; apply Hp; apply Ho; reflexivity]. eexists; split; [reflexivity|]. split; assumption.
Qed.
Lemma ledger_serves g0 w vs g : as_declared g0 w -> tables_like g0 g -> framed g -> Forall2 has_type (prim_args w) vs ->
  exists rs, ledger_op w vs g = Some rs /\ match rs with Done v h' => has_type (prim_ret w) v /\ tables_like g0 h' | Early _ _ => False | Abort _ => True end.
Proof.
  intros Hw Hg Hfr Hty. destruct (prim_named w) eqn:Hnamed.
  2:{ destruct w; try discriminate Hnamed; inversion Hty; subst; cbn [ledger_op prim_ret]; apply who_like; auto; apply Hfr. } pose proof Hg as (Ht & Ev & Em & Ef). pose proof Ht as [T1 T2 T3 T4 T5]. replace (ledger_op w vs g) with (ledger_word w vs g) by (destruct w; try reflexivity; discriminate Hnamed). unfold ledger_word. rewrite T1. cbn [is_some].
  assert (REF : exists rs, @refuse value = Some rs /\ match rs with Done v h' => has_type (prim_ret w) v /\ tables_like g0 h' | Early _ _ => False | Abort _ => True end) by (eexists; split; [reflexivity|exact I]).
  destruct (negb _); [exact REF|].
  assert (ERR : forall c, 0 <= c < 4 -> prim_ret w = TResp TBool TUInt -> exists rs, Some (Done (err_uint c) g) = Some rs /\ match rs with Done v h' => has_type (prim_ret w) v /\ tables_like g0 h' | Early _ _ => False | Abort _ => True end).
  { intros c Hc Hp. eexists. split; [reflexivity|]. split; [rewrite Hp; cbn; lia|exact Hg]. }
  destruct w as [n o t|n o t|n o kt vt|n o kt vt|n o kt vt|n o kt vt|n o|n o|n o|n o|n o| |]; try discriminate Hnamed; cbn [prim_name as_declared prim_ret prim_args] in *;
    repeat match goal with H : Forall2 has_type (_ :: _) _ |- _ => inversion H; subst; clear H | H : Forall2 has_type [] _ |- _ => inversion H; subst; clear H end; rewrite <- ?Ev, <- ?Em in Hw.
  - rewrite Hw. destruct (T2 _ _ Hw) as (v & -> & Hv). destruct (ty_eq_dec t t); [|congruence]. destruct (has_type_dec t v); [|contradiction]. eexists. split; [reflexivity|]. split; [exact Hv|exact Hg].
  - rewrite Hw. destruct (ty_eq_dec t t); [|congruence]. eexists. split; [reflexivity|]. split; [exact I|]. split; [|auto]. split; auto. cbn. intros n' t' Hn'. unfold nupd.
    destruct (name_eq_dec n' n) as [->|]; [eexists; split; [reflexivity|congruence]|apply T2; exact Hn'].
  - rewrite Hw. destruct (ty_eq_dec kt kt); [|congruence]. destruct (ty_eq_dec vt vt); [|congruence]. destruct (d_map (g_db g) n y) as [v|] eqn:Hk; [|eexists; split; [reflexivity|split; [exact I|exact Hg]]].
    pose proof (T3 _ _ _ _ _ Hw Hk) as Hv. destruct (has_type_dec vt v); [|contradiction]. eexists; split; [reflexivity|split; [exact Hv|exact Hg]].
  - destruct (is_read_only g); [exact REF|]. rewrite Hw. destruct (ty_eq_dec kt kt); [|congruence]. destruct (ty_eq_dec vt vt); [|congruence].
    apply spending_like; [exact Hg|eapply typed_set_map; [exact Ht|exact Hw|congruence]|exact I].
  - destruct (is_read_only g); [exact REF|]. rewrite Hw. destruct (ty_eq_dec kt kt); [|congruence]. destruct (ty_eq_dec vt vt); [|congruence].
    destruct (d_map (g_db g) n y); (apply spending_like; [exact Hg| |exact I]); [eapply like_self; exact Hg|eapply typed_set_map; [exact Ht|exact Hw|congruence]].
  - destruct (is_read_only g); [exact REF|]. rewrite Hw. destruct (ty_eq_dec kt kt); [|congruence].
    destruct (d_map (g_db g) n y); (apply spending_like; [exact Hg| |exact I]); [eapply typed_set_map; [exact Ht|exact Hw|congruence]|eapply like_self; exact Hg].
  - destruct (d_supply (g_db g) n) as [s|] eqn:Hs; [|exact REF]. pose proof (T4 _ _ Hs) as Hr. unfold is_u128 in Hr. unfold u_ok.
    rewrite (proj2 (Z.leb_le 0 s)), (proj2 (Z.ltb_lt s (2 ^ 128))) by lia. eexists; split; [reflexivity|]. split; [exact Hr|exact Hg].
  - destruct y; try contradiction. destruct (g_ft g n); [|exact REF]. destruct (d_supply (g_db g) n) as [s|] eqn:Hs; [|exact REF]. pose proof (T5 n p) as Hr. unfold is_u128 in Hr. unfold u_ok.
    rewrite (proj2 (Z.leb_le 0 _)), (proj2 (Z.ltb_lt _ (2 ^ 128))) by lia. eexists; split; [reflexivity|]. split; [exact Hr|exact Hg].
  - destruct y; try contradiction. destruct y0; try contradiction. cbn [has_type] in *. destruct (z =? 0); [apply ERR; [lia|reflexivity]|]. destruct (g_ft g n) as [cap|]; [|exact REF]. destruct (d_supply (g_db g) n) as [s|] eqn:Hs; [|exact REF].
    pose proof (T4 _ _ Hs) as Hr. pose proof (T5 n p) as Hb. unfold is_u128 in *. destruct (Z.ltb_spec (s + z) (2 ^ 128)) as [HH1|]; [|exact REF]. destruct (match cap with Some c => s + z <=? c | None => true end); [|exact REF].
    destruct (Z.ltb_spec (d_bal (g_db g) n p + z) (2 ^ 128)) as [HH5|]; [|exact REF]. cbn [andb]. apply (spending_like g0 g _ _ _ (TResp TBool TUInt)); [exact Hg| |exact I].
    apply (typed_event (g_with_db g _)). apply (typed_bal (g_with_db g _)); [apply typed_supply; [exact Ht|]|]; unfold is_u128; lia.
  - destruct y; try contradiction. destruct y0; try contradiction. cbn [has_type] in *. destruct (z =? 0); [apply ERR; [lia|reflexivity]|]. destruct (d_supply (g_db g) n) as [s|] eqn:Hs; [|exact REF].
    pose proof (T4 _ _ Hs) as Hr. pose proof (T5 n p) as Hb. unfold is_u128 in *. destruct (Z.ltb_spec (d_bal (g_db g) n p) z) as [|HH1]; [apply ERR; [lia|reflexivity]|]. destruct (Z.leb_spec z s) as [HH5|]; [|exact REF].
    apply (spending_like g0 g _ _ _ (TResp TBool TUInt)); [exact Hg| |exact I].
    apply (typed_event (g_with_db g _)). apply (typed_bal (g_with_db g _)); [apply typed_supply; [exact Ht|]|]; unfold is_u128; lia.
  - destruct y; try contradiction. destruct y0; try contradiction. destruct y1; try contradiction. cbn [has_type] in *. destruct (z =? 0); [apply ERR; [lia|reflexivity]|]. destruct (prin_eq_dec p p0) as [|Hne]; [apply ERR; [lia|reflexivity]|]. destruct (g_ft g n); [|exact REF]. destruct (d_supply (g_db g) n) as [s|] eqn:Hs; [|exact REF].
    pose proof (T5 n p) as Hb. pose proof (T5 n p0) as Hb0. unfold is_u128 in *. destruct (Z.ltb_spec (d_bal (g_db g) n p) z) as [|HH1]; [apply ERR; [lia|reflexivity]|]. destruct (Z.ltb_spec (d_bal (g_db g) n p0 + z) (2 ^ 128)) as [HH7|]; [|exact REF].
    apply (spending_like g0 g _ _ _ (TResp TBool TUInt)); [exact Hg| |exact I].
    apply (typed_event (g_with_db g _)). apply (typed_bal (g_with_db g _)); [apply typed_bal; [exact Ht|]|]; unfold is_u128; lia.
Qed.

(** ** Scopes *)
(** the state is like [g0] and its frame is [k] *)
Definition inv (g0 : gctx) (k : list db * list bool * (option prin * list prin) * (option prin * list prin)) (g : gctx) : Prop :=
  tables_like g0 g /\ framed g /\ frame g = k.
Lemma typed_same g g' d : g_view g' = g_view g -> g_vars g' = g_vars g -> g_maps g' = g_maps g -> typed_tables (g_with_db g d) -> typed_tables (g_with_db g' d).
Proof. intros H1 H2 H3 [T1 T2 T3 T4 T5]. split; cbn in *; rewrite ?H1, ?H2, ?H3; auto. Qed.
(** a word leaves the frame alone *)
Lemma op_frame w vs g v g' : ledger_op w vs g = Some (Done v g') -> framed g -> frame g' = frame g /\ framed g'.
Proof.
  intros H Hf. assert (HH : exists d m, g' = g_with_memory (g_with_db g d) m).
  { assert (SELF : exists d m, g = g_with_memory (g_with_db g d) m) by (exists (g_db g), (g_memory g); destruct g; reflexivity).
    assert (DB : forall d, exists d' m, g_with_db g d = g_with_memory (g_with_db g d') m) by (intros d; exists d, (g_memory g); destruct g; reflexivity).
    assert (PAID : forall d c, paid g d c g' -> exists d m, g' = g_with_memory (g_with_db g d) m) by (intros d c (-> & _); eauto).
    apply C61_words_do_what_clarity_says in H. destruct w; cbn [does] in H.
    - destruct H as (_ & -> & _). exact SELF.
    - destruct H as (? & ? & _ & _ & -> & _). apply DB.
    - destruct H as (? & _ & -> & _). exact SELF.
    - destruct H as (? & ? & ? & _ & _ & _ & H & _). eapply PAID; exact H.
    - destruct H as (? & ? & ? & _ & H & _). eapply PAID; exact H.
    - destruct H as (? & ? & _ & H & _). eapply PAID; exact H.
    - destruct H as (? & _ & -> & _). exact SELF.
    - destruct H as (? & _ & -> & _). exact SELF.
    - destruct H as (? & ? & _ & [(_ & _ & ->)|(_ & _ & (? & H & _) & _)]); [exact SELF|eapply PAID; exact H].
    - destruct H as (? & ? & _ & [(_ & _ & ->)|(_ & _ & _ & (? & H & _))]); [exact SELF|eapply PAID; exact H].
    - destruct H as (? & ? & ? & _ & [(_ & _ & ->)|[(_ & _ & _ & ->)|[(_ & _ & _ & _ & ->)|(_ & _ & _ & _ & (? & H & _))]]]); [exact SELF..|eapply PAID; exact H].
    - destruct H as (? & _ & -> & _). exact SELF.
    - destruct H as (? & _ & -> & _). exact SELF. }
  destruct HH as (d & m & ->). split; [reflexivity|]. destruct Hf as [F1 F2 F3 F4 F5 F6]. split; auto. eapply Forall_impl; [|exact F1]. intros x. apply typed_same; reflexivity.
Qed.
Lemma opened g0 s g : tables_like g0 g -> framed g -> exists g1, ledger_open s g = Some g1 /\ tables_like g0 g1 /\ framed g1.
Proof.
  intros Hg Hf. pose proof Hg as (Ht & H1 & H2 & H3). destruct Hf as [F1 F2 F3 F4 F5 F6].
  assert (TX : forall ro, tables_like g0 (g_with_tx g (g_db g) (g_db g :: g_layers g) ro) /\ framed (g_with_tx g (g_db g) (g_db g :: g_layers g) ro)).
  { intros ro. split; [split; [destruct Ht; split; assumption|auto]|]. split; auto. assert (F1' : Forall (fun d => typed_tables (g_with_db g d)) (g_db g :: g_layers g)) by (constructor; [apply (like_self g0); exact Hg|exact F1]). eapply Forall_impl; [|exact F1']. intros x. apply typed_same; reflexivity. }
  destruct s; (eexists; split; [reflexivity|]); [apply TX|apply TX|]. split; [split; [destruct Ht; split; assumption|auto]|].
  split; cbn [push_caller push_sender g_with_caller g_with_sender g_layers g_self g_sender g_caller g_senders g_callers]; try assumption.
  - eapply Forall_impl; [|exact F1]. intros x. apply typed_same; reflexivity.
  - intros p Hp. injection Hp as <-. exact F2.
  - intros p Hp. injection Hp as <-. exact F2.
  - split; [|discriminate]. destruct (g_sender g) as [p|]; [constructor; [apply F3; reflexivity|apply F5]|apply F5].
  - split; [|discriminate]. destruct (g_caller g) as [p|]; [constructor; [apply F4; reflexivity|apply F6]|apply F6].
Qed.
Lemma closed g0 s keep g g1 g2 : framed g -> tables_like g0 g -> ledger_open s g = Some g1 -> tables_like g0 g2 -> framed g2 -> frame g2 = frame g1 ->
  exists g3, ledger_close s keep g2 = Some g3 /\ tables_like g0 g3 /\ framed g3 /\ frame g3 = frame g.
Proof.
  intros Hf0 Hg0 Ho Hg2 Hf2 Hfr. pose proof Hg2 as (Ht & H1 & H2 & H3). destruct Hf2 as [F1 F2 F3 F4 F5 F6]. unfold frame in Hfr. injection Hfr as E1 E2 E3 E4 E5 E6.
  destruct s; cbn [ledger_open] in Ho; injection Ho as <-; cbn [g_with_tx push_caller push_sender g_with_caller g_with_sender g_layers g_ro g_self g_sender g_caller g_senders g_callers] in *; cbn [ledger_close].
  - rewrite E1 in *. eexists. split; [reflexivity|]. inversion F1 as [|? ? HA HB]; subst. split; [|split].
    + split; [|auto]. destruct keep; [destruct Ht; split; assumption|destruct HA; split; assumption].
    + split; auto. eapply Forall_impl; [|exact HB]. intros x. apply typed_same; reflexivity.
    + unfold frame. cbn. rewrite E2, E3, E4, E5, E6. reflexivity.
  - rewrite E1 in *. eexists. split; [reflexivity|]. inversion F1 as [|? ? HA HB]; subst. split; [|split].
    + split; [|auto]. destruct HA; split; assumption.
    + split; auto. eapply Forall_impl; [|exact HB]. intros x. apply typed_same; reflexivity.
    + unfold frame. cbn. rewrite E2, E3, E4, E5, E6. reflexivity.
  - rewrite E3, E5, E4, E6. destruct Hf0 as [G1 G2 G3 G4 G5 G6]. eexists. split; [reflexivity|]. split; [|split].
    + split; [destruct Ht; split; assumption|auto].
    + assert (S1 : hd_error (match g_sender g with Some s => s :: g_senders g | None => g_senders g end) = g_sender g /\ tl (match g_sender g with Some s => s :: g_senders g | None => g_senders g end) = g_senders g).
      { destruct (g_sender g); [split; reflexivity|]. rewrite (proj2 G5 eq_refl). split; reflexivity. }
      assert (S2 : hd_error (match g_caller g with Some s => s :: g_callers g | None => g_callers g end) = g_caller g /\ tl (match g_caller g with Some s => s :: g_callers g | None => g_callers g end) = g_callers g).
      { destruct (g_caller g); [split; reflexivity|]. rewrite (proj2 G6 eq_refl). split; reflexivity. }
      destruct S1 as (-> & ->). destruct S2 as (-> & ->). split; cbn [g_with_caller g_with_sender g_layers g_self g_sender g_caller g_senders g_callers]; try assumption. eapply Forall_impl; [|exact F1]. intros x. apply typed_same; reflexivity.
    + unfold frame. cbn. rewrite E1, E2. f_equal; [f_equal|].
      * destruct (g_sender g); [reflexivity|]. rewrite (proj2 G5 eq_refl). reflexivity.
      * destruct (g_caller g); [reflexivity|]. rewrite (proj2 G6 eq_refl). reflexivity.
Qed.
(** the uses are as declared *)
Definition declared (g : gctx) (u : use) : Prop := match u with UPrim w => as_declared g w | UScope _ => True end.
Lemma ledger_served g0 u : declared g0 u -> served (inv g0) u.
Proof.
  destruct u as [w|s]; cbn [declared served].
  - intros Hw vs k g (Hg & Hf & Hk) Hty. destruct (ledger_serves g0 w vs g Hw Hg Hf Hty) as (rs & Hr & K). exists rs. split; [exact Hr|]. destruct rs as [v h'| |]; auto.
    destruct K as (K1 & K2). split; [exact K1|]. destruct (op_frame _ _ _ _ _ Hr Hf) as (L1 & L2). split; [exact K2|]. split; [exact L2|congruence].
  - intros _ k g (Hg & Hf & Hk). destruct (opened g0 s g Hg Hf) as (g1 & Ho & Hg1 & Hf1). exists (frame g1), g1. split; [exact Ho|]. split; [split; [exact Hg1|split; [exact Hf1|reflexivity]]|].
    intros keep g2 (Hg2 & Hf2 & Hk2). destruct (closed g0 s keep g g1 g2 Hf Hg Ho Hg2 Hf2 Hk2) as (g3 & Hc & Hg3 & Hf3 & Hk3). exists g3. split; [exact Hc|]. split; [exact Hg3|]. split; [exact Hf3|congruence].
Qed.

(** On plain programs compiled for the contract's declarations, from tables that hold
    values of their declared types: every call with arguments of the declared types
    ends as the reference evaluator says, the tables again hold values of their
    declared types, and the sender, the caller and the savepoints are those from
    before the call. *)
Theorem C61_plain_programs_partial : forall host ds f ts tr vs ws (st : store gctx) sp,
  wt_prog ds = true -> plain_prog ds = true -> own_names ds -> serves (module_env host ds) -> ready ds st sp ->
  Forall (declared (shost st)) (prog_uses ds) -> typed_tables (shost st) -> framed (shost st) ->
  assoc f (prog_sig ds) = Some (ts, tr) -> Forall2 has_type ts vs -> rep_list (smem st) (fun a => a < sp) ts vs ws ->
  exists rs, run_defs (CH := ledger_chain) false ds f vs (shost st) = Some rs /\ behaves (module_env host ds) f ws st sp tr rs /\
    match rs with Done _ g => typed_tables g /\ g_vars g = g_vars (shost st) /\ g_maps g = g_maps (shost st) /\ g_ft g = g_ft (shost st) /\
      g_layers g = g_layers (shost st) /\ g_ro g = g_ro (shost st) /\ g_sender g = g_sender (shost st) /\ g_caller g = g_caller (shost st) | _ => True end.
Proof.
  intros host ds f ts tr vs ws st sp H1 H2 H3 H4 H5 H6 H7 HF H8 H9 H10.
  assert (Hsv : Forall (served (inv (shost st))) (prog_uses ds)) by (eapply Forall_impl; [|exact H6]; intros w; apply ledger_served).
  assert (Hi : inv (shost st) (frame (shost st)) (shost st)) by (split; [split; auto|split; [exact HF|reflexivity]]).
  destruct (C46_plain_programs_with_host_partial (inv (shost st)) (frame (shost st)) host ds f ts tr vs ws st sp H1 H2 H3 (ledger_ok _ H4) H5 Hsv Hi H8 H9 H10) as (rs & Hr & Hb).
  exists rs. split; [exact Hr|]. split; [exact Hb|]. destruct rs as [v g| |]; try exact I.
  assert (HL : Forall (fun l => has_type (fst (fst l)) (snd (fst l))) (prog_lits ds)). { destruct H5 as [_ _ _ _ _ H5]. eapply Forall_impl; [|exact H5]. intros [[t x] o] (H & _). exact H. }
  destruct (run_total (inv (shost st)) ds H1 HL Hsv f ts tr vs (frame (shost st)) (shost st) Hi H8 H9) as (rs' & Hr' & K). rewrite Hr in Hr'. injection Hr' as <-. destruct K as (_ & (K & K1 & K2 & K3) & _ & K4).
  unfold frame in K4. injection K4 as E1 E2 E3 E4 E5 E6. auto 10.
Qed.
Print Assumptions C61_plain_programs_partial.

(** [(begin (var-set x e) (var-get x))] returns the value of [e], and [x] has that value *)
Theorem C61_var_get_after_set_partial : forall host d ds args ws (st : store gctx) sp n o o' t e v g1,
  wt_prog (d :: ds) = true -> own_names (d :: ds) -> serves (module_env host (d :: ds)) -> ready (d :: ds) st sp ->
  Forall2 has_type (map snd (fd_params d)) args -> rep_list (smem st) (fun a => a < sp) (map snd (fd_params d)) args ws ->
  fd_body d = ESeq (EPrim (PVarSet n o t) [e]) (EPrim (PVarGet n o' t) []) ->
  eval (CH := ledger_chain) true (run_defs true ds) e (combine (map fst (fd_params d)) args) (shost st) = Some (Done v g1) ->
  has_type t v -> g_view g1 = None -> is_clarity_name n = true -> g_vars g1 n = Some t ->
  exists d', behaves (module_env host (d :: ds)) (fd_name d) ws st sp (fd_ret d) (Done v (g_with_db g1 d')) /\ var_written (g_db g1) d' n v.
Proof.
  intros host d ds args ws st sp n o o' t e v g1 H1 H2 H3 H4 H5 H6 Hb He Hv Hw Hn Ht. exists (set_var (g_db g1) n v). split; [|apply set_var_written].
  pose proof (body_behaves host d ds args ws st sp (Done v (g_with_db g1 (set_var (g_db g1) n v))) H1 H2 (ledger_ok _ H3) H4 H5 H6) as K. apply K. rewrite Hb. cbn [eval map mapM]. unfold bind, ret. rewrite He. cbn [chain_op ledger_chain].
  assert (S1 : ledger_op (PVarSet n o t) [v] g1 = Some (Done (CBool true) (g_with_db g1 (set_var (g_db g1) n v)))).
  { cbn [ledger_op]. unfold ledger_word. cbn [prim_name]. rewrite Hw, Hn, Ht. cbn [is_some negb]. destruct (ty_eq_dec t t); [reflexivity|congruence]. }
  assert (S2 : ledger_op (PVarGet n o' t) [] (g_with_db g1 (set_var (g_db g1) n v)) = Some (Done v (g_with_db g1 (set_var (g_db g1) n v)))).
  { cbn [ledger_op]. unfold ledger_word. cbn [prim_name]. change (g_view (g_with_db g1 _)) with (g_view g1). change (g_vars (g_with_db g1 _)) with (g_vars g1). rewrite Hw, Hn, Ht. cbn [is_some negb]. rewrite gw7.
    change (d_var (set_var (g_db g1) n v) n) with (nupd (d_var (g_db g1)) n (Some v) n). rewrite nupd_same. destruct (ty_eq_dec t t); [|congruence]. destruct (has_type_dec t v); [reflexivity|contradiction]. }
  rewrite S1, S2. reflexivity.
Qed.
Print Assumptions C61_var_get_after_set_partial.

(** ** A concrete program *)
(*  (define-private (tick (x uint))
      (begin (var-set tok (+ (var-get tok) x))
             (map-insert tok x (var-get tok))
             (default-to u0 (map-get? tok x))))                                *)
Definition ex_tick : fundef := mkdef "tick" [("x", TUInt)] TUInt
  (ESeq (EPrim (PVarSet tok 0 TUInt) [EArith OAdd TUInt (EPrim (PVarGet tok 0 TUInt) []) [EVar TUInt "x"]])
  (ESeq (EPrim (PMapInsert tok 0 TUInt TUInt) [EVar TUInt "x"; EPrim (PVarGet tok 0 TUInt) []])
        (EDefault (ENum TUInt 0) (EPrim (PMapGet tok 0 TUInt TUInt) [EVar TUInt "x"])))).
(** the variable [tok] is [u5], the map [tok] is empty *)
Definition g9 : gctx := g_with_db g7 (set_var no_db tok (CUInt 5)).
Definition st9 : store gctx := mkstore m0 [("stack-pointer", VI32 400); ("runtime-error-code", VI32 0)] g9.
Definition host9 : string -> option (list vt * (list val -> store gctx -> result gctx)) := fun f => assoc f ledger_host.

Lemma alice_ok : prin_ok alice. Proof. cbn. split; [lia|]. split; [reflexivity|]. repeat (apply Forall_cons; [lia|]). apply Forall_nil. Qed.
Lemma self_ok : prin_ok self.
Proof. cbn. split; [split; [lia|]; split; [reflexivity|]; repeat (apply Forall_cons; [lia|]); apply Forall_nil|]. split; [right; exists 97, [98]; repeat split|lia]. Qed.
Lemma framed9 g : g_layers g = [] -> g_self g = self -> g_sender g = Some alice -> g_caller g = Some alice -> g_senders g = [] -> g_callers g = [] -> framed g.
Proof.
  intros H1 H2 H3 H4 H5 H6. split; rewrite ?H1, ?H2, ?H3, ?H4, ?H5, ?H6.
  - constructor.
  - apply self_ok.
  - intros p Hp. injection Hp as <-. apply alice_ok.
  - intros p Hp. injection Hp as <-. apply alice_ok.
  - split; [constructor|discriminate].
  - split; [constructor|discriminate].
Qed.

Example C61_ex_hyps : wt_prog [ex_tick] = true /\ plain_prog [ex_tick] = true /\ own_names [ex_tick] /\ serves (module_env host9 [ex_tick]) /\ ready [ex_tick] st9 400 /\
  Forall (declared (shost st9)) (prog_uses [ex_tick]) /\ typed_tables (shost st9) /\ framed (shost st9) /\
  assoc "tick" (prog_sig [ex_tick]) = Some ([TUInt], TUInt) /\ Forall2 has_type [TUInt] [CUInt 3] /\ rep_list (smem st9) (fun a => a < 400) [TUInt] [CUInt 3] ([VI64 3; VI64 0] ++ []).
Proof.
  split; [reflexivity|]. split; [reflexivity|]. split. { intros d [<-|[]]. vm_compute; reflexivity. }
  split. { intros f Hf. unfold word_imports in Hf. split; [|reflexivity]. repeat (destruct Hf as [<-|Hf]; [vm_compute; reflexivity|]). destruct Hf. }
  split. { split; [reflexivity|eexists; reflexivity|lia|vm_compute; split; [discriminate|reflexivity]|vm_compute; discriminate|].
    replace (prog_lits [ex_tick]) with (repeat (TAscii 3, CAscii tok, 0) 5) by reflexivity. apply Forall_forall. intros x Hx. apply repeat_spec in Hx as ->.
    split; [cbn; split; [lia|repeat (apply Forall_cons; [unfold clarity_ascii; lia|]); apply Forall_nil]|]. apply (ascii_in_mem _ _ 3 tok 0); [vm_compute; reflexivity|lia|cbn; lia|cbn; lia]. }
  split. { repeat (apply Forall_cons; [reflexivity|]). apply Forall_nil. }
  split. { split; [reflexivity| | | |].
    - intros n t. cbn. unfold nupd. destruct (name_eq_dec n tok); [|discriminate]. intros H. injection H as <-. eexists. split; [reflexivity|cbn; lia].
    - cbn. discriminate.
    - cbn. discriminate.
    - intros n p. cbn. unfold is_u128. lia. }
  split; [apply framed9; reflexivity|]. split; [reflexivity|]. split; [constructor; [cbn; lia|constructor]|]. constructor; [split; reflexivity|constructor].
Qed.
(** the evaluator's result, and the compiled code's *)
Example C61_ex_eval : match run_defs (CH := ledger_chain) false [ex_tick] "tick" [CUInt 3] g9 with
  | Some (Done v g) => v = CUInt 8 /\ d_var (g_db g) tok = Some (CUInt 8) /\ d_map (g_db g) tok (CUInt 3) = Some (CUInt 8) /\ g_memory g = 100000 - 34
  | _ => False
  end.
Proof. vm_compute. auto. Qed.
Example C61_ex_run : match invoke (module_env host9 [ex_tick]) 300 "tick" [VI64 3; VI64 0] st9 with
  | RVals ws st' => ws = [VI64 8; VI64 0] /\ d_var (g_db (shost st')) tok = Some (CUInt 8) /\ d_map (g_db (shost st')) tok (CUInt 3) = Some (CUInt 8)
  | _ => False
  end.
Proof. vm_compute. auto. Qed.
