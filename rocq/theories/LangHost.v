(** * The modelled host serves its words as specified (proof support)

    [host_ok] (LangPrim.v) for the ledger: a module that imports the host functions
    of Ledger.v gets from them what [ledger_op] (SpecChain.v) says. *)
From Coq Require Import ZArith String List Bool Lia Arith.
Import ListNotations.
From Verif Require Import Wasm StdEnv WasmLogic WasmTac Spec ZBits Mem MemFacts Bytes Clar Codec Rep RepFacts ReadProofs WriteProofs ArgProofs PropCodec Emit
  Ledger LedgerProofs Calls CallProofs PropLedger PropStore Ast SpecLang Lang Typing LangFacts LangMem LangCall LangPrim SpecChain.
Open Scope string_scope.
Open Scope list_scope.
Open Scope Z_scope.

(** the imports of the words *)
Definition word_imports : list string :=
  ["stdlib.get_variable"; "stdlib.set_variable"; "stdlib.map_get"; "stdlib.map_set"; "stdlib.map_insert"; "stdlib.map_delete";
   "stdlib.ft_get_supply"; "stdlib.ft_get_balance"; "stdlib.ft_mint"; "stdlib.ft_burn"; "stdlib.ft_transfer";
   "stdlib.tx_sender"; "stdlib.contract_caller"; "stdlib.enter_as_contract"; "stdlib.exit_as_contract";
   "stdlib.begin_public_call"; "stdlib.begin_read_only_call"; "stdlib.commit_call"; "stdlib.roll_back_call"].
Definition serves (E : env gctx) : Prop := forall f, In f word_imports -> imports E f.

Lemma storable_no_trait : forall t, storable t = true -> no_trait t.
Proof.
  induction t using ty_ind'; intros H0; cbn [storable no_trait] in *; auto; try discriminate.
  - apply andb_prop in H0 as (A & B). auto.
  - induction H as [|[k t] fs Ht F IH]; [exact I|]. cbn [forallb snd] in H0. apply andb_prop in H0 as (A & B). split; [apply Ht; exact A|apply IH; exact B].
Qed.

Section Host.
Context (E : env gctx) (HE : serves E).

Lemma arity f ps h : In f word_imports -> assoc f ledger_host = Some (ps, h) -> fun_arity E f = Some (length ps).
Proof. intros Hi Ha. destruct (HE f Hi) as [H1 H2]. unfold fun_arity. rewrite H1, H2, Ha. reflexivity. Qed.
Lemma served_call f ps h args st (R : result gctx -> Prop) : In f word_imports -> assoc f ledger_host = Some (ps, h) -> length args = length ps -> R (h args st) -> called E f args st R.
Proof. intros Hi Ha Hl HR. split; [rewrite (arity _ _ _ Hi Ha), Hl; reflexivity|]. eapply calls_wpf; [eapply host_calls; [apply HE; exact Hi|exact Ha]|exact HR]. Qed.

Lemma given_at m a t v : ty_ok t -> has_type t v -> msize m < 2 ^ 31 -> given m a t v -> value_at m a (get_type_size t mod m32) t v.
Proof.
  intros Hok Hty Hm (P & ws & Hr & Hw). assert (Hs : get_type_size t mod m32 = get_type_size t).
  { apply Z.mod_small. pose proof (rep_words_len _ _ _ _ _ Hr) as Hl. destruct Hw as (A1 & A2 & A3). change (2 ^ 31) with h32 in Hm. change m32 with (2 * h32). lia. }
  rewrite Hs. split; [exact Hok|]. split; [exact Hty|]. split; [exact Hm|]. split; [reflexivity|]. exists P, ws. split; assumption.
Qed.
Lemma name_is m o n : holds m o n -> msize m < 2 ^ 31 -> is_clarity_name n = true -> read_name m o (Z.of_nat (length n)) = Some n.
Proof. intros H1 H2 H3. apply read_name_at. split; auto. Qed.
Lemma name_not m o n : holds m o n -> msize m < 2 ^ 31 -> is_clarity_name n = false -> read_name m o (Z.of_nat (length n)) = None.
Proof. intros H Hm Hn. destruct (holds_small _ _ _ H Hm) as [E1 E2]. unfold read_name. rewrite E1, E2, (hread_holds _ _ _ H), Hn. reflexivity. Qed.

Lemma back_ok st t v ro : ty_ok t -> storable t = true -> has_type t v -> msize (smem st) < 2 ^ 31 -> 0 <= ro -> 0 <= call_stack_size t true true ->
  ro + call_stack_size t true true <= msize (smem st) ->
  gave st ro t (Done v (shost st)) (return_value st t ro (HOk v (shost st))).
Proof.
  intros Hok Hst Ht Hm H0 Hb H1. cbn [call_stack_size] in *. apply storable_no_trait in Hst.
  pose proof (payload_bound t Hok v Ht) as Hpb. pose proof (words_size_nonneg (clar2wasm_ty t)) as Hs. rewrite words_size_ty in Hs.
  assert (Hp : 0 <= payload t v) by (apply payload_nonneg).
  assert (sgn32 ro = ro) as Hro by (apply sgn32_small; change (2 ^ 31) with h32 in Hm; lia).
  destruct (write_good t v (smem st) ro (ro + get_type_size t) Hok Hst Ht Hm) as (Hp' & m' & ws & Ew & (S1 & R1) & Hw & Hr); unfold max_payload, apart in *; try lia.
  unfold return_value. rewrite Hro, Ew. cbn [gave call_stack_size]. exists m', ws. split; [reflexivity|]. split; [split; [exact S1|]; intros x Hx; apply R1; lia|]. split; [exact Hw|].
  split; [|exact Ht]. eapply rep_frame; [reflexivity| | |exact Hr]; cbv beta; [reflexivity|]. intros x Hx. unfold seg. lia.
Qed.

(** ** Results on the stack *)
Lemma rep_u z : 0 <= z < 2 ^ 128 -> forall m P, rep m P TUInt (CUInt z) [VI64 (z mod m64); VI64 (z / m64)].
Proof.
  intros Hz m P. cbn [rep]. change (2 ^ 64) with m64. rewrite (Z.mod_small (z / m64)); [reflexivity|].
  split; [apply Z.div_pos; [lia|reflexivity]|apply Z.div_lt_upper_bound; [reflexivity|change (m64 * m64) with (2 ^ 128); lia]].
Qed.
Ltac typed_words := cbn [clar2wasm_ty]; repeat (apply Forall2_cons || apply Forall2_nil); cbn [wtyped]; lia.
Lemma rep_okb m P : rep m P (TResp TBool TUInt) ok_bool ok_true.
Proof. cbn [rep ok_bool]. exists [VI32 1], [VI64 0; VI64 0]. split; [reflexivity|]. split; [reflexivity|]. typed_words. Qed.
Lemma rep_err c m P : 0 <= c < 4 -> rep m P (TResp TBool TUInt) (err_uint c) (err_code c).
Proof.
  intros Hc. cbn [rep err_uint]. exists [VI32 0], [VI64 c; VI64 0]. split; [reflexivity|]. split; [typed_words|].
  rewrite (Z.mod_small c), Z.div_small by lia. reflexivity.
Qed.
Lemma did_ok (st : store gctx) t v ws rs r h extra : rs = Done v h -> r = RVals ws (mkstore (smem st) (sglob st) h) -> (forall m P, rep m P t v (ws ++ extra)) -> has_type t v -> did st t extra rs r.
Proof. intros -> -> H1 H2. exists ws. auto. Qed.
Lemma u_ok_iff z : u_ok z = true -> 0 <= z < 2 ^ 128.
Proof. unfold u_ok. intros H. apply andb_prop in H as (A & B). apply Z.leb_le in A. apply Z.ltb_lt in B. lia. Qed.
Lemma with_db_self g : g_with_db g (g_db g) = g. Proof. destruct g; reflexivity. Qed.

Ltac sopen := unfold op_map_get, op_map_set, op_map_insert, op_map_delete, op_get_variable, op_set_variable, reading, cur, hbind, hget, hopt, hret,
    hfail, hguard, db_mod, hmod, add_memory, run_op, host_err.
Ltac trap := cbn [did gave]; split; [reflexivity|eexists; reflexivity].
Ltac fields := rewrite ?gw1, ?gw2, ?gw3, ?gw4, ?gw5, ?gw6, ?gw7, ?gw8, ?gw9.


(** the parts of [prim_spec] common to all words *)
Ltac start := intros (Ho & Hst) vs st rs Hop Hty Hnm Hm0 Hm1; cbn [prim_ret prim_args prim_addr prim_name prim_named] in *; specialize (Hnm eq_refl);
  change (chain_cap (HS := gctx)) with (2 ^ 31 - 1) in Hm1; assert (Hm : msize (smem st) < 2 ^ 31) by (clear - Hm1; lia);
  cbn [chain_op ledger_chain] in Hop; cbn [ledger_op] in Hop; unfold ledger_word in Hop; cbn [prim_name] in Hop;
  destruct (g_view (shost st)) as [?|] eqn:Hview; cbn [is_some] in Hop; [discriminate|].
Ltac named Hn := match goal with _ : holds _ _ ?n |- _ => destruct (is_clarity_name n) eqn:Hn; cbn [negb] in * end.
Ltac imp f := eapply (served_call f); [unfold word_imports; cbn [In]; auto 20|reflexivity|reflexivity|].
Ltac unname := cbn [app]; unfold host_err; match goal with H : holds ?m _ ?n, HM : msize ?m < 2 ^ 31 |- _ => rewrite (name_not m _ n H HM) by assumption end; injection_op; trap
with injection_op := match goal with H : Some (Abort _) = Some ?rs |- _ => apply (f_equal (fun o => match o with Some r => r | None => rs end)) in H; cbv beta iota in H; subst rs
  | H : refuse = Some ?rs |- _ => unfold refuse in H; apply (f_equal (fun o => match o with Some r => r | None => rs end)) in H; cbv beta iota in H; subst rs
  | H : Some (Done _ _) = Some ?rs |- _ => apply (f_equal (fun o => match o with Some r => r | None => rs end)) in H; cbv beta iota in H; subst rs end.
Ltac tys := repeat match goal with H : Forall _ (_ :: _) |- _ => apply Forall_cons_iff in H; destruct H end.

Lemma h_var_get n o t : prim_types (PVarGet n o t) -> prim_spec E (PVarGet n o t).
Proof.
  start. destruct vs; [|exact I]. intros ro (R1 & R2 & R3). tys. imp "stdlib.get_variable". cbn [app i_get_variable]. named Hn; [|unname].
  rewrite (name_is _ _ _ Hnm Hm Hn). destruct (g_vars (shost st) n) as [t'|] eqn:Ht; [|injection_op; unfold host_err; trap].
  sopen. rewrite Hview. cbn iota. destruct (d_var (g_db (shost st)) n) as [v|] eqn:Hv; [|injection_op; cbn [return_value]; trap].
  destruct (ty_eq_dec t t') as [<-|]; [|discriminate]. destruct (has_type_dec t v) as [Hv'|]; [|discriminate]. injection_op.
  apply back_ok; assumption.
Qed.
Lemma h_var_set n o t : prim_types (PVarSet n o t) -> prim_spec E (PVarSet n o t).
Proof.
  start. destruct vs as [|v [|]]; try exact I. intros a Ha. tys. inversion Hty as [|? ? ? ? Hv _]; subst. imp "stdlib.set_variable". cbn [app i_set_variable]. named Hn; [|unname].
  rewrite (name_is _ _ _ Hnm Hm Hn). destruct (g_vars (shost st) n) as [t'|] eqn:Ht; [|injection_op; unfold host_err; trap].
  destruct (ty_eq_dec t t') as [<-|]; [|discriminate]. injection_op. assert (Hva : value_at (smem st) a (get_type_size t mod m32) t v) by (apply given_at; assumption).
  rewrite (read_arg_at _ _ _ _ _ Hva). sopen. rewrite (admits_typed _ _ Hv). eapply did_ok; [reflexivity|reflexivity|reflexivity|exact I].
Qed.
Lemma h_map_get n o kt vt : prim_types (PMapGet n o kt vt) -> prim_spec E (PMapGet n o kt vt).
Proof.
  start. destruct vs as [|k [|]]; try exact I. intros a ro Ha (R1 & R2 & R3). tys. inversion Hty as [|? ? ? ? Hk _]; subst. imp "stdlib.map_get". cbn [app i_map_get]. unfold map_args. named Hn; [|unname].
  rewrite (name_is _ _ _ Hnm Hm Hn). destruct (g_maps (shost st) n) as [[kt' vt']|] eqn:Ht; [|injection_op; unfold host_err; trap].
  destruct (ty_eq_dec kt kt') as [<-|]; [|discriminate]. destruct (ty_eq_dec vt vt') as [<-|]; [|discriminate]. cbn [fst snd].
  assert (Hka : value_at (smem st) a (get_type_size kt mod m32) kt k) by (apply given_at; assumption).
  rewrite (read_arg_at _ _ _ _ _ Hka). sopen. rewrite (admits_typed _ _ Hk), Hview. cbn iota.
  destruct (d_map (g_db (shost st)) n k) as [v|] eqn:Hv.
  - destruct (has_type_dec vt v) as [Hv'|]; [|discriminate]. injection_op. apply back_ok; assumption.
  - injection_op. apply back_ok; try assumption. exact I.
Qed.
Ltac spend := unfold spending in *; rewrite ?with_db_self in *;
  match goal with |- context [?c <=? g_memory ?g] => destruct (c <=? g_memory g) end; injection_op; [eapply did_ok; [reflexivity|reflexivity|reflexivity|exact I]|trap].
Lemma h_map_put (op : name -> ty -> ty -> value -> value -> H (list val)) p n o kt vt :
  p = PMapSet n o kt vt /\ op = op_map_set \/ p = PMapInsert n o kt vt /\ op = op_map_insert -> prim_types p -> prim_spec E p.
Proof.
  intros [[-> ->]|[-> ->]]; start; destruct vs as [|k [|v [|]]]; try exact I; intros a b Ha Hb; tys; inversion Hty as [|? ? ? ? Hk Hty2]; subst; inversion Hty2 as [|? ? ? ? Hv _]; subst.
  - imp "stdlib.map_set". cbn [app i_map_put]. unfold map_args. destruct (is_read_only (shost st)) eqn:Hro.
    { named Hn; injection_op; unfold host_err; trap. }
    named Hn; [|unname]. rewrite (name_is _ _ _ Hnm Hm Hn). destruct (g_maps (shost st) n) as [[kt' vt']|] eqn:Ht; [|injection_op; unfold host_err; trap].
    destruct (ty_eq_dec kt kt') as [<-|]; [|discriminate]. destruct (ty_eq_dec vt vt') as [<-|]; [|discriminate]. cbn [fst snd].
    rewrite (read_arg_at _ _ _ _ _ (given_at _ _ kt k ltac:(assumption) Hk Hm Ha)), (read_arg_at _ _ _ _ _ (given_at _ _ vt v ltac:(assumption) Hv Hm Hb)).
    sopen. rewrite (admits_typed _ _ Hk), (admits_typed _ _ Hv). fields. spend.
  - imp "stdlib.map_insert". cbn [app i_map_put]. unfold map_args. destruct (is_read_only (shost st)) eqn:Hro.
    { named Hn; injection_op; unfold host_err; trap. }
    named Hn; [|unname]. rewrite (name_is _ _ _ Hnm Hm Hn). destruct (g_maps (shost st) n) as [[kt' vt']|] eqn:Ht; [|injection_op; unfold host_err; trap].
    destruct (ty_eq_dec kt kt') as [<-|]; [|discriminate]. destruct (ty_eq_dec vt vt') as [<-|]; [|discriminate]. cbn [fst snd].
    rewrite (read_arg_at _ _ _ _ _ (given_at _ _ kt k ltac:(assumption) Hk Hm Ha)), (read_arg_at _ _ _ _ _ (given_at _ _ vt v ltac:(assumption) Hv Hm Hb)).
    sopen. rewrite (admits_typed _ _ Hk), (admits_typed _ _ Hv), Hview. cbn iota.
    destruct (d_map (g_db (shost st)) n k) as [v'|] eqn:Hv'; fields; spend.
Qed.
Lemma h_map_delete n o kt vt : prim_types (PMapDelete n o kt vt) -> prim_spec E (PMapDelete n o kt vt).
Proof.
  start. destruct vs as [|k [|]]; try exact I. intros a Ha. tys. inversion Hty as [|? ? ? ? Hk _]; subst. imp "stdlib.map_delete". cbn [app i_map_delete]. unfold map_args.
  destruct (is_read_only (shost st)) eqn:Hro.
  { named Hn; injection_op; unfold host_err; trap. }
  named Hn; [|unname]. rewrite (name_is _ _ _ Hnm Hm Hn). destruct (g_maps (shost st) n) as [[kt' vt']|] eqn:Ht; [|injection_op; unfold host_err; trap].
  destruct (ty_eq_dec kt kt') as [<-|]; [|discriminate]. cbn [fst snd]. rewrite (read_arg_at _ _ _ _ _ (given_at _ _ kt k ltac:(assumption) Hk Hm Ha)).
  sopen. rewrite (admits_typed _ _ Hk), Hview. cbn iota. destruct (d_map (g_db (shost st)) n k) as [v'|] eqn:Hv'; fields; spend.
Qed.
(** ** Tokens *)
Lemma prin_words m P t p ws : rep m P TPrin (CPrin p) ws -> has_type TPrin (CPrin p) -> msize m < 2 ^ 31 -> t = TPrin ->
  exists o l, ws = [VI32 o; VI32 l] /\ read_prin m o l = Some p.
Proof.
  intros Hr Hp Hm _. cbn [rep] in Hr. destruct Hr as (o & -> & H1 & H2 & H3 & H4). eexists o, _. split; [reflexivity|]. apply read_prin_at. split; [exact Hp|]. split; [exact H3|]. auto.
Qed.
Lemma uint_words m P z ws : rep m P TUInt (CUInt z) ws -> 0 <= z < 2 ^ 128 -> exists lo hi, ws = [VI64 lo; VI64 hi] /\ amount lo hi = z.
Proof.
  intros -> Hz. eexists _, _. split; [reflexivity|]. rewrite (Z.mod_small (z / 2 ^ 64)); [apply amount_u128; exact Hz|].
  split; [apply Z.div_pos; lia|apply Z.div_lt_upper_bound; [reflexivity|change (2 ^ 64 * 2 ^ 64) with (2 ^ 128); lia]].
Qed.
Ltac topen := unfold op_ft_get_supply, op_ft_get_balance, op_ft_mint, op_ft_burn, op_ft_transfer, checked_increase_token_supply, checked_decrease_token_supply, get_ft_supply, get_ft_balance,
    emit, set_ft_balance, reading, cur, hbind, hget, hopt, hret, hfail, hguard, db_mod, hmod, add_memory, run_op, host_err.
Lemma h_ft_supply n o : prim_types (PFtSupply n o) -> prim_spec E (PFtSupply n o).
Proof.
  start. intros P ws Hrep. destruct vs; [|inversion Hty]. inversion Hrep; subst. cbn [ft_fun app]. imp "stdlib.ft_get_supply". cbn [i_ft_get_supply]. named Hn; [|unname].
  rewrite (name_is _ _ _ Hnm Hm Hn). topen. rewrite Hview. cbn iota. destruct (d_supply (g_db (shost st)) n) as [s|]; [|injection_op; trap].
  destruct (u_ok s) eqn:Hu; [|discriminate]. apply u_ok_iff in Hu. injection_op. eapply did_ok; [reflexivity|reflexivity| |exact Hu]. intros m' P'. cbn [app]. apply rep_u. exact Hu.
Qed.
Lemma h_ft_balance n o : prim_types (PFtBalance n o) -> prim_spec E (PFtBalance n o).
Proof.
  start. intros P ws Hrep. inversion Hrep as [|? ? v vs' w ws' H1 H2]; subst. inversion H2; subst. inversion Hty as [|? ? ? ? Hv _]; subst. destruct v as [| | |p| | | | | | | | | |]; try contradiction.
  destruct (prin_words _ _ TPrin _ _ H1 Hv Hm eq_refl) as (oo & ol & -> & Hp). cbn [ft_fun app]. imp "stdlib.ft_get_balance". cbn [i_ft_get_balance]. named Hn; [|unname].
  rewrite (name_is _ _ _ Hnm Hm Hn), Hp. topen. destruct (g_ft (shost st) n); [|injection_op; trap]. rewrite Hview. cbn iota.
  destruct (d_supply (g_db (shost st)) n) as [s|]; [|injection_op; trap].
  destruct (u_ok _) eqn:Hu; [|discriminate]. apply u_ok_iff in Hu. injection_op. eapply did_ok; [reflexivity|reflexivity| |exact Hu]. intros m' P'. cbn [app]. apply rep_u. exact Hu.
Qed.
Ltac stop := injection_op; first [trap|eapply did_ok; [reflexivity|rewrite ?split_mem; destruct_store; reflexivity|intros; rewrite app_nil_r; apply rep_err; lia|cbn; lia]]
with destruct_store := idtac.
Lemma h_ft_mint n o : prim_types (PFtMint n o) -> prim_spec E (PFtMint n o).
Proof.
  start. intros P ws Hrep. inversion Hrep as [|? ? v vs' w ws' H1 H2]; subst. inversion H2 as [|? ? v2 vs2 w2 ws2 H3 H4]; subst. inversion H4; subst.
  inversion Hty as [|? ? ? ? Hv Hty2]; subst. inversion Hty2 as [|? ? ? ? Hv2 _]; subst.
  destruct v as [|a| | | | | | | | | | | |]; try contradiction. destruct v2 as [| | |p| | | | | | | | | |]; try contradiction. cbn [has_type] in Hv.
  destruct (uint_words _ _ _ _ H1 Hv) as (lo & hi & -> & Ha). destruct (prin_words _ _ TPrin _ _ H3 Hv2 Hm eq_refl) as (oo & ol & -> & Hp).
  cbn [ft_fun app]. imp "stdlib.ft_mint". cbn [i_ft_mint]. named Hn; [|unname]. rewrite (name_is _ _ _ Hnm Hm Hn), Hp, Ha. topen.
  destruct (a =? 0); [stop|]. destruct (g_ft (shost st) n) as [cap|]; [|stop]. rewrite Hview. cbn iota. destruct (d_supply (g_db (shost st)) n) as [s|]; [|stop].
  destruct (s + a <? 2 ^ 128); cbn [andb] in Hop; [|stop]. destruct (match cap with Some c => s + a <=? c | None => true end); cbn [andb] in Hop; [|stop]. fields. rewrite Hview. cbn iota. fields.
  change (d_supply (set_supply (g_db (shost st)) n (s + a)) n) with (nupd (d_supply (g_db (shost st))) n (Some (s + a)) n). rewrite nupd_same. cbn beta iota.
  change (d_bal (set_supply (g_db (shost st)) n (s + a)) n p) with (d_bal (g_db (shost st)) n p).
  destruct (d_bal (g_db (shost st)) n p + a <? 2 ^ 128); [|stop]. fields. unfold sz_prin, sz_uint. unfold spending in Hop.
  destruct (Z.leb_spec 148 (g_memory (shost st))) as [M1|M1].
  2:{ destruct (Z.leb_spec (148 + 16) (g_memory (shost st))) as [M2|_]; [exfalso; clear - M1 M2; lia|]. stop. }
  fields. destruct (Z.leb_spec 16 (g_memory (shost st) - 148)) as [M2|M2]; (destruct (Z.leb_spec (148 + 16) (g_memory (shost st))) as [M3|M3]; try (exfalso; clear - M1 M2 M3; lia)); [|stop].
  injection_op. fields. eapply did_ok; [reflexivity| |intros; rewrite app_nil_r; apply rep_okb|exact I]. f_equal. f_equal. unfold after_mint.
  replace (g_memory (shost st) - (148 + 16)) with (g_memory (shost st) - 148 - 16) by lia. reflexivity.
Qed.
Lemma h_ft_burn n o : prim_types (PFtBurn n o) -> prim_spec E (PFtBurn n o).
Proof.
  start. intros P ws Hrep. inversion Hrep as [|? ? v vs' w ws' H1 H2]; subst. inversion H2 as [|? ? v2 vs2 w2 ws2 H3 H4]; subst. inversion H4; subst.
  inversion Hty as [|? ? ? ? Hv Hty2]; subst. inversion Hty2 as [|? ? ? ? Hv2 _]; subst.
  destruct v as [|a| | | | | | | | | | | |]; try contradiction. destruct v2 as [| | |p| | | | | | | | | |]; try contradiction. cbn [has_type] in Hv.
  destruct (uint_words _ _ _ _ H1 Hv) as (lo & hi & -> & Ha). destruct (prin_words _ _ TPrin _ _ H3 Hv2 Hm eq_refl) as (oo & ol & -> & Hp).
  cbn [ft_fun app]. imp "stdlib.ft_burn". cbn [i_ft_burn]. named Hn; [|unname]. rewrite (name_is _ _ _ Hnm Hm Hn), Hp, Ha. topen.
  destruct (a =? 0); [stop|]. rewrite Hview. cbn iota. destruct (d_supply (g_db (shost st)) n) as [s|] eqn:Hs; [|stop]. cbn iota.
  destruct (d_bal (g_db (shost st)) n p <? a); [stop|]. rewrite Hview. cbn iota. rewrite Hs. cbn iota. destruct (a <=? s); [|stop]. fields. unfold sz_prin, sz_uint. unfold spending in Hop.
  destruct (Z.leb_spec 148 (g_memory (shost st))) as [M1|M1].
  2:{ destruct (Z.leb_spec (148 + 16) (g_memory (shost st))) as [M2|_]; [exfalso; clear - M1 M2; lia|]. stop. }
  fields. destruct (Z.leb_spec 16 (g_memory (shost st) - 148)) as [M2|M2]; (destruct (Z.leb_spec (148 + 16) (g_memory (shost st))) as [M3|M3]; try (exfalso; clear - M1 M2 M3; lia)); [|stop].
  injection_op. fields. eapply did_ok; [reflexivity| |intros; rewrite app_nil_r; apply rep_okb|exact I]. f_equal. f_equal. unfold after_burn.
  replace (g_memory (shost st) - (148 + 16)) with (g_memory (shost st) - 148 - 16) by lia. reflexivity.
Qed.
Lemma h_ft_transfer n o : prim_types (PFtTransfer n o) -> prim_spec E (PFtTransfer n o).
Proof.
  start. intros P ws Hrep. inversion Hrep as [|? ? v vs' w ws' H1 H2]; subst. inversion H2 as [|? ? v2 vs2 w2 ws2 H3 H4]; subst. inversion H4 as [|? ? v3 vs3 w3 ws3 H5 H6]; subst. inversion H6; subst.
  inversion Hty as [|? ? ? ? Hv Hty2]; subst. inversion Hty2 as [|? ? ? ? Hv2 Hty3]; subst. inversion Hty3 as [|? ? ? ? Hv3 _]; subst.
  destruct v as [|a| | | | | | | | | | | |]; try contradiction. destruct v2 as [| | |p| | | | | | | | | |]; try contradiction. destruct v3 as [| | |q| | | | | | | | | |]; try contradiction. cbn [has_type] in Hv.
  destruct (uint_words _ _ _ _ H1 Hv) as (lo & hi & -> & Ha). destruct (prin_words _ _ TPrin _ _ H3 Hv2 Hm eq_refl) as (oo & ol & -> & Hp). destruct (prin_words _ _ TPrin _ _ H5 Hv3 Hm eq_refl) as (qo & ql & -> & Hq).
  cbn [ft_fun app]. imp "stdlib.ft_transfer". cbn [i_ft_transfer]. named Hn; [|unname]. rewrite (name_is _ _ _ Hnm Hm Hn), Hp, Hq, Ha. topen.
  destruct (a =? 0); [stop|]. destruct (prin_eq_dec p q) as [|Hne]; [stop|]. destruct (g_ft (shost st) n) as [cap|]; [|stop]. rewrite Hview. cbn iota. destruct (d_supply (g_db (shost st)) n) as [s|] eqn:Hs; [|stop]. cbn iota.
  destruct (d_bal (g_db (shost st)) n p <? a); [stop|]. rewrite Hview. cbn iota. rewrite Hs. cbn iota. destruct (d_bal (g_db (shost st)) n q + a <? 2 ^ 128); [|stop]. fields. unfold sz_prin, sz_uint. unfold spending in Hop.
  destruct (Z.leb_spec 148 (g_memory (shost st))) as [M1|M1].
  2:{ destruct (Z.leb_spec (2 * 148 + 2 * 16) (g_memory (shost st))) as [M2|_]; [exfalso; clear - M1 M2; lia|]. stop. }
  fields. destruct (Z.leb_spec 148 (g_memory (shost st) - 148)) as [M2|M2].
  2:{ destruct (Z.leb_spec (2 * 148 + 2 * 16) (g_memory (shost st))) as [M3|_]; [exfalso; clear - M1 M2 M3; lia|]. stop. }
  fields. destruct (Z.leb_spec 16 (g_memory (shost st) - 148 - 148)) as [M4|M4].
  2:{ destruct (Z.leb_spec (2 * 148 + 2 * 16) (g_memory (shost st))) as [M3|_]; [exfalso; clear - M1 M4 M3; lia|]. stop. }
  fields. destruct (Z.leb_spec 16 (g_memory (shost st) - 148 - 148 - 16)) as [M5|M5]; (destruct (Z.leb_spec (2 * 148 + 2 * 16) (g_memory (shost st))) as [M3|M3]; try (exfalso; clear - M1 M2 M3 M4 M5; lia)); [|stop].
  injection_op. fields. eapply did_ok; [reflexivity| |intros; rewrite app_nil_r; apply rep_okb|exact I]. f_equal. f_equal. unfold after_transfer.
  replace (g_memory (shost st) - (2 * 148 + 2 * 16)) with (g_memory (shost st) - 148 - 148 - 16 - 16) by lia. reflexivity.
Qed.

(** ** The sender and the caller *)
Lemma prin_handed (st : store gctx) ro p : has_type TPrin (CPrin p) -> msize (smem st) < 2 ^ 31 -> 0 <= ro -> ro + call_stack_size TPrin false true <= msize (smem st) ->
  forall get rl, get (shost st) = Some p -> handed st ro TPrin (Done (CPrin p) (shost st)) (i_principal get [VI32 ro; VI32 rl] st).
Proof.
  intros Hp Hm H0 H1 get rl Hg. change (call_stack_size TPrin false true) with 150 in *. change (2 ^ 31) with h32 in Hm.
  cbn [has_type] in Hp. pose proof (prin_bytes_len p Hp) as Hl. pose proof (prin_bytes_byte p Hp) as Hb.
  cbn [i_principal]. rewrite Hg, (sgn32_small ro) by lia. cbn [write_to_wasm]. rewrite (prin_mem_eq p Hp), hwrite_ok by lia. unfold write_repr. cbn [fst snd].
  exists (write_bytes (smem st) ro (prin_bytes p)), [VI32 ro; VI32 (Z.of_nat (length (prin_bytes p)))]. split.
  { unfold w32. rewrite Z.mod_small by (change m32 with (2 * h32); lia). reflexivity. }
  split. { split; [apply msize_write|]. intros x Hx. change (call_stack_size TPrin false true) with 150 in *. apply rd_write_other. lia. }
  split; [|exact Hp]. cbn [rep]. exists ro. split; [reflexivity|]. change m32 with (2 * h32). split; [lia|]. split; [lia|]. split; [apply holds_write; try assumption; change m32 with (2 * h32); lia|].
  intros x Hx. unfold seg. change (call_stack_size TPrin false true) with 150. lia.
Qed.
Lemma h_native p : prim_named p = false -> prim_spec E p.
Proof.
  intros Hp vs st rs Hop Hty _ Hm0 Hm1. change (chain_cap (HS := gctx)) with (2 ^ 31 - 1) in Hm1. assert (Hm : msize (smem st) < 2 ^ 31) by (clear - Hm1; lia).
  destruct p; try discriminate Hp; cbv zeta; (destruct vs; [|exact I]); intros ro R1 R2; cbn [chain_op ledger_chain ledger_op] in Hop; unfold ledger_who in Hop.
  - imp "stdlib.tx_sender". destruct (g_sender (shost st)) as [p|] eqn:Hs; [|injection_op; cbn [i_principal]; rewrite Hs; trap].
    destruct (has_type_dec TPrin (CPrin p)) as [Hp'|]; [|discriminate]. injection_op. apply prin_handed; assumption.
  - imp "stdlib.contract_caller". destruct (g_caller (shost st)) as [p|] eqn:Hs; [|injection_op; cbn [i_principal]; rewrite Hs; trap].
    destruct (has_type_dec TPrin (CPrin p)) as [Hp'|]; [|discriminate]. injection_op. apply prin_handed; assumption.
Qed.

(** ** Calls and [as-contract] *)
Lemma nullary f op (st : store gctx) h : In f word_imports -> assoc f ledger_host = Some ([], i_nullary op) -> op (shost st) = HOk [] h ->
  fun_arity E f = Some 0%nat /\ wpf E f [] st (fun r => r = RVals [] (host_at st h)).
Proof. intros Hi Ha Ho. apply (served_call f [] (i_nullary op) [] st); auto. cbn [i_nullary]. rewrite Ho. reflexivity. Qed.
Lemma h_scope : scope_ok E.
Proof.
  split.
  - intros s st h H. cbn [chain_open ledger_chain ledger_open] in H. destruct s; cbn [ledger_open] in H; injection H as <-; (eapply nullary; [unfold word_imports; cbn [In open_fun]; auto 30|reflexivity|reflexivity]).
  - intros s keep st h H. cbn [chain_close ledger_chain ledger_close] in H. destruct s; cbn [ledger_close] in H.
    + destruct (g_layers (shost st)) as [|old ls] eqn:Hl; [discriminate|]. injection H as <-. destruct keep; (eapply nullary; [unfold word_imports; cbn [In close_fun]; auto 30|reflexivity|]).
      * unfold op_commit, hbind, hget. rewrite Hl. reflexivity.
      * unfold op_roll_back, hbind, hget. rewrite Hl. reflexivity.
    + destruct (g_layers (shost st)) as [|old ls] eqn:Hl; [discriminate|]. injection H as <-. eapply nullary; [unfold word_imports; cbn [In close_fun]; auto 30|reflexivity|].
      unfold op_roll_back, hbind, hget. rewrite Hl. reflexivity.
    + destruct (g_sender (shost st)) as [s|] eqn:Hs; [|discriminate]. destruct (g_caller (shost st)) as [c|] eqn:Hc; [|discriminate]. injection H as <-.
      eapply nullary; [unfold word_imports; cbn [In close_fun]; auto 30|reflexivity|].
      unfold op_exit_as_contract, pop_sender, pop_caller, hbind, hget, hput, hret. rewrite Hs. destruct (g_senders (shost st)); cbn [hd_error tl];
        change (g_caller (g_with_sender _ _ _)) with (g_caller (shost st)); change (g_callers (g_with_sender _ _ _)) with (g_callers (shost st)); rewrite Hc; destruct (g_callers (shost st)); reflexivity.
Qed.

Theorem ledger_ok : host_ok E.
Proof.
  split; [|exact h_scope]. intros p Hp. destruct p.
  - apply h_var_get; exact Hp.
  - apply h_var_set; exact Hp.
  - apply h_map_get; exact Hp.
  - eapply h_map_put; [left; split; reflexivity|exact Hp].
  - eapply h_map_put; [right; split; reflexivity|exact Hp].
  - apply h_map_delete; exact Hp.
  - apply h_ft_supply; exact Hp.
  - apply h_ft_balance; exact Hp.
  - apply h_ft_mint; exact Hp.
  - apply h_ft_burn; exact Hp.
  - apply h_ft_transfer; exact Hp.
  - apply h_native; reflexivity.
  - apply h_native; reflexivity.
Qed.
End Host.
