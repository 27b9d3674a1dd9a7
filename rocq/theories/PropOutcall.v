(** * C70: a function of another contract receives the arguments the caller wrote *)
From Coq Require Import ZArith String List Bool Lia.
Import ListNotations.
From Verif Require Import Wasm Std StdEnv WasmLogic WasmTac Spec Mem MemFacts Bytes SpecBytes SpecUtf8 Clar Codec Emit Rep RepFacts WriteProofs ArgProofs
  Ledger LedgerProofs PropLedger PropStore Const ConstProofs Ast SpecLang Lang Typing LangFacts LangBase LangCtl LangMem LangSeq LangCall LangPrim LangMain LangPlain PropLang SpecChain LangTrace LangHost PropLang3 PropLang4
  Outcall.
Open Scope string_scope.
Open Scope list_scope.
Open Scope Z_scope.

(** ** The module: the program [ds] and a function that calls another contract *)
(** [(define-public (f params) (contract-call? to name args))] *)
Record call_fun := mkcall { cl_params : list (string * ty); cl_ret : ty; cl_to : prin; cl_to_at : Z; cl_name : name; cl_name_at : Z; cl_args : list expr }.
Definition define_call (ds : list fundef) (a : call_fun) : func :=
  define_body (cl_params a) (cl_ret a)
    (e_contract_call (cl_to a) (cl_to_at a) (cl_name a) (cl_name_at a) (map ty_of (cl_args a)) (cl_ret a) (map (compile (prog_sig ds) (cl_ret a)) (cl_args a))).
Definition call_env (host : string -> option (list vt * (list val -> store gctx -> result gctx))) (ds : list fundef) (f : string) (a : call_fun) : env gctx :=
  mkenv (fun n => match assoc n std_funs with Some g => Some g | None => assoc n ((f, define_call ds a) :: compile_defs ds) end) host std_table.
Definition wt_call (ds : list fundef) (f : string) (a : call_fun) : bool :=
  wt_prog ds && negb (has_key f (map (fun d => (fd_name d, fd_ret d)) ds)) &&
  forallb (wt (prog_sig ds) (cl_ret a) (cl_params a)) (cl_args a) && ty_okb (cl_ret a) && storable (cl_ret a) && is_clarity_name (cl_name a).
Record call_module (net : network) (host : string -> option (list vt * (list val -> store gctx -> result gctx))) (ds : list fundef) (f : string) (a : call_fun) : Prop := {
  clm_typed : wt_call ds f a = true;
  clm_own : own_names ds;
  clm_name : assoc f std_funs = None;
  clm_words : serves (call_env host ds f a);
  clm_free : efun (call_env host ds f a) "stdlib.contract_call" = None;
  clm_call : host "stdlib.contract_call" = Some (T 10, i_contract_call net);
  clm_to : exists v h n, cl_to a = PCon v h n }.
(** what the generator asks for ([frame_size]), and what the code uses *)
Definition requested (ds : list fundef) (a : call_fun) : Z :=
  fold_right (fun e n => Lang.frame (prog_sig ds) e + n) 0 (cl_args a) + call_stack_size (cl_ret a) true true + frames ds.
Definition used (ds : list fundef) (a : call_fun) : Z := sizes (map ty_of (cl_args a)) + requested ds a.
Record call_ready (room : Z) (ds : list fundef) (a : call_fun) (st : store gctx) (sp : Z) : Prop := {
  clr_sp : gget (sglob st) "stack-pointer" = Some (VI32 sp);
  clr_err : exists w, gget (sglob st) "runtime-error-code" = Some w;
  clr_pos : 0 <= sp;
  clr_room : sp + room <= msize (smem st) <= 2 ^ 31 - 1;
  clr_lits : Forall (held (smem st) (fun a => a < sp))
    ((TPrin, CPrin (cl_to a), cl_to_at a) :: (TAscii (Z.of_nat (length (cl_name a))), CAscii (cl_name a), cl_name_at a) :: flat_map lits (cl_args a) ++ prog_lits ds) }.

(** ** What [contract-call?] means *)
Definition run_call (strict restore : bool) (net : network) (ds : list fundef) (a : call_fun) (vs : list value) (g : gctx) : option (res gctx value) :=
  let r := combine (map fst (cl_params a)) vs in
  as_fun (bind (mapM (map (fun e => eval (CH := ledger_chain) strict (run_defs (CH := ledger_chain) strict ds) e r) (cl_args a))) (call_other restore net (cl_to a) (cl_name a) (cl_ret a))) g.
(** each expression in the state the one before it left *)
Inductive in_order (ev : expr -> gctx -> option (res gctx value)) : list expr -> gctx -> list value -> gctx -> Prop :=
| io_nil g : in_order ev [] g [] g
| io_cons e es g v g1 vs g2 : ev e g = Some (Done v g1) -> in_order ev es g1 vs g2 -> in_order ev (e :: es) g (v :: vs) g2.

Lemma mapM_order (ev : expr -> M gctx value) es : forall g vs g', mapM (map ev es) g = Some (Done vs g') -> in_order (fun e => ev e) es g vs g'.
Proof.
  induction es as [|e es IH]; intros g vs g' H; cbn [map mapM] in H.
  - change (Some (Done (@nil value) g) = Some (Done vs g')) in H. inversion H; subst. constructor.
  - unfold bind in H. destruct (ev e g) as [[v g1|v g1|c]|] eqn:E1; try discriminate.
    destruct (mapM (map ev es) g1) as [[us g2|v2 g2|c]|] eqn:E2; try discriminate. change (Some (Done (v :: us) g2) = Some (Done vs g')) in H. inversion H; subst.
    econstructor; [exact E1|apply IH; exact E2].
Qed.

(** The arguments are evaluated from left to right; the named function of the named
    contract runs on exactly their values, in the state they left, with this contract as
    [contract-caller]; its result is the result, and afterwards the tables are as it left
    them and this contract's own sender and caller are what they were. *)
Theorem C70_meaning_of_contract_call : forall net ds a vs g v g', run_call false true net ds a vs g = Some (Done v g') ->
  let r := combine (map fst (cl_params a)) vs in
  let ev := fun e g => eval (CH := ledger_chain) false (run_defs (CH := ledger_chain) false ds) e r g in
  mapM (map ev (cl_args a)) g = Some (Early v g') \/
  exists us g0 d g1, in_order ev (cl_args a) g us g0 /\ net (cl_to a) (cl_name a) = Some d /\
    dp_run d us (push_caller (g_self g0) g0) = HOk v g1 /\ has_type (cl_ret a) v /\
    g_caller (push_caller (g_self g0) g0) = Some (g_self g0) /\
    g_db g' = g_db g1 /\ g_layers g' = g_layers g1 /\
    g_sender g' = g_sender g0 /\ g_caller g' = g_caller g0 /\ g_callers g' = g_callers g0 /\ g_self g' = g_self g0.
Proof.
  intros net ds a vs g v g' H r ev. unfold run_call, as_fun in H. fold r in H. unfold bind in H.
  change (fun e => eval false (run_defs false ds) e r) with ev in H.
  match type of H with context [mapM ?x g] => change x with (map ev (cl_args a)) in H end.
  match type of H with context [@mapM ?a1 ?a2 ?x g] => change (@mapM a1 a2 x g) with (mapM (map ev (cl_args a)) g) in H end.
  destruct (mapM (map ev (cl_args a)) g) as [[us g0|x g0|c]|] eqn:Em; try discriminate.
  2:{ inversion H; subst. left. reflexivity. }
  right. apply mapM_order in Em. unfold call_other in H. destruct (net (cl_to a) (cl_name a)) as [d|] eqn:Hd; [|discriminate].
  destruct (dp_run d us _) as [w g1|g1] eqn:Hr; [|discriminate]. destruct (has_type_dec (cl_ret a) w) as [Ht|]; [|discriminate]. inversion H; subst.
  exists us, g0, d, g1. auto 14.
Qed.
Print Assumptions C70_meaning_of_contract_call.

(** ** What the compiled function does *)
Lemma call_fun_ok net host ds f a L : call_module net host ds f a -> callable net (cl_to a) (cl_name a) (map ty_of (cl_args a)) (cl_ret a) ->
  incl ((TPrin, CPrin (cl_to a), cl_to_at a) :: (TAscii (Z.of_nat (length (cl_name a))), CAscii (cl_name a), cl_name_at a) :: flat_map lits (cl_args a) ++ prog_lits ds) L ->
  fun_ok (CH := ledger_chain) (call_env host ds f a) L (used ds a) (fun _ vs h => run_call true false net ds a vs h) f (map snd (cl_params a)) (cl_ret a).
Proof.
  intros [H1 H2 H3 H4 H5 H6 H7] Hca HL. unfold wt_call in H1. apply andb_prop in H1 as (H1 & W6). apply andb_prop in H1 as (H1 & W5). apply andb_prop in H1 as (H1 & W4). apply andb_prop in H1 as (H1 & W3). apply andb_prop in H1 as (W1 & W2).
  set (E := call_env host ds f a) in *.
  assert (HE : has_std E) by (split; [|reflexivity]; intros n g Hg; unfold E, call_env; cbn [efun]; rewrite Hg; reflexivity).
  assert (HLc : In (TPrin, CPrin (cl_to a), cl_to_at a) L) by (apply HL; left; reflexivity).
  assert (HLn : In (TAscii (Z.of_nat (length (cl_name a))), CAscii (cl_name a), cl_name_at a) L) by (apply HL; right; left; reflexivity).
  assert (HL' : incl (flat_map lits (cl_args a) ++ prog_lits ds) L) by (intros x Hx; apply HL; right; right; exact Hx).
  pose proof (incl_app_l _ _ _ HL') as HL1. pose proof (incl_app_r' _ _ _ HL') as HL2. clear HL HL'.
  assert (HF : forall n fn, assoc n (compile_defs ds) = Some fn -> efun E n = Some fn).
  { intros n fn Hn. unfold E, call_env. cbn [efun]. rewrite (defs_own _ H2 _ _ Hn). cbn [assoc]. destruct (String.eqb_spec f n) as [->|]; [|exact Hn]. exfalso.
    assert (K : has_key n (map (fun d => (fd_name d, fd_ret d)) ds) = true).
    { revert Hn. clear. unfold has_key. induction ds as [|d ds IH]; cbn [compile_defs map assoc]; [discriminate|]. destruct (String.eqb (fd_name d) n); auto. }
    rewrite K in W2. discriminate W2. }
  destruct (prog_ok (CH := ledger_chain) E HE (ledger_ok E H4) L ds ltac:(assumption) HL2 HF) as (F0 & P1).
  set (ss := map (fun e => mksub (HS := gctx) (ty_of e) (Lang.frame (prog_sig ds) e) (compile (prog_sig ds) (cl_ret a) e)
    (fun r => eval (CH := ledger_chain) true (run_defs (CH := ledger_chain) true ds) e r)) (cl_args a)).
  assert (Hs : Forall (sub_ok (CH := ledger_chain) E (cl_ret a) L (frames ds) (cl_params a)) ss).
  { unfold ss. revert W3 HL1. clear - HE H4 F0 P1.
    induction (cl_args a) as [|e es IH]; cbn [map forallb flat_map]; intros Hw HL; [constructor|]. apply andb_prop in Hw as (W1 & W2). constructor.
    - exact (expr_ok (CH := ledger_chain) E HE (prog_sig ds) (cl_ret a) L (frames ds) F0 _ (ledger_ok E H4) P1 e (cl_params a) W1 (incl_app_l _ _ _ HL)).
    - apply IH; [exact W2|exact (incl_app_r' _ _ _ HL)]. }
  assert (K1 : map (@s_t gctx) ss = map ty_of (cl_args a)) by (unfold ss; rewrite map_map; reflexivity).
  assert (K2 : map (@s_c gctx) ss = map (compile (prog_sig ds) (cl_ret a)) (cl_args a)) by (unfold ss; rewrite map_map; reflexivity).
  assert (K3 : sfr ss = fold_right (fun e n => Lang.frame (prog_sig ds) e + n) 0 (cl_args a)).
  { unfold ss, sfr. clear. induction (cl_args a) as [|e es IH]; cbn [map fold_right s_fr]; [reflexivity|]. rewrite IH. reflexivity. }
  rewrite <- K1 in Hca.
  pose proof (contract_call_ok E net H5 H6 (cl_ret a) L (frames ds) F0 (cl_params a) (cl_to a) (cl_to_at a) (cl_name a) (cl_name_at a) (cl_ret a) ss
    H7 W6 Hca (ty_okb_ok _ W4) W5 HLc HLn Hs) as HI.
  rewrite K1, K2 in HI.
  assert (Hroom : used ds a = sizes (map ty_of (cl_args a)) + sfr ss + call_stack_size (cl_ret a) true true + frames ds) by (unfold used, requested; rewrite K3; lia).
  rewrite Hroom. eapply (body_ok (CH := ledger_chain) E L (frames ds)); [exact F0|exact HI| |].
  - unfold E, call_env. cbn [efun assoc]. rewrite H3, String.eqb_refl. reflexivity.
  - intros vs h. unfold run_call. cbv zeta. f_equal. f_equal. f_equal. unfold ss. rewrite map_map. reflexivity.
Qed.
(** With enough memory for the arguments, and with every argument laid out as the callee
    will read it, the compiled function returns what the callee returns for exactly the
    values of the arguments, or stops when the callee does. *)
Theorem C70_compiled_call_partial : forall net host ds f a vs ws (st : store gctx) sp rs,
  call_module net host ds f a -> call_ready (used ds a) ds a st sp ->
  (forall d, net (cl_to a) (cl_name a) = Some d -> dp_ret d = cl_ret a /\ Forall ty_ok (dp_args d) /\ Forall2 passes (map ty_of (cl_args a)) (dp_args d)) ->
  Forall2 has_type (map snd (cl_params a)) vs -> rep_list (smem st) (fun a => a < sp) (map snd (cl_params a)) vs ws ->
  run_call true false net ds a vs (shost st) = Some rs -> behaves (call_env host ds f a) f ws st sp (cl_ret a) rs.
Proof.
  intros net host ds f a vs ws st sp rs HM [R1 R2 R3 R4 R5] Hca Hty Hrep Hrs.
  destruct (call_fun_ok net host ds f a _ HM Hca (incl_refl _)) as (_ & K).
  assert (Hvis : forall a, a < sp -> vis (fun _ => True) sp a) by (intros x Hx; split; auto).
  match type of R5 with Forall _ ?LL => assert (HL : Forall (held (smem st) (vis (fun _ => True) sp)) LL) end. { eapply Forall_impl; [|exact R5]. intros x. apply held_frame; auto. }
  assert (HA : rep_list (smem st) (vis (fun _ => True) sp) (map snd (cl_params a)) vs ws) by (eapply rep_list_frame; [| | |exact Hrep]; auto).
  specialize (K vs ws st sp (fun _ => True) rs R1 R2 R3 (fun _ _ => I) HL). change (chain_cap (HS := gctx)) with (2 ^ 31 - 1) in K. specialize (K ltac:(lia) ltac:(lia) HA Hty Hrs). destruct K as (f0 & r & H1 & H2).
  destruct rs as [v h|v h|c]; [|contradiction|].
  - destruct H2 as (ws' & st' & -> & (Hb1 & Hb2) & Hg & Hh & Hr & Hv). exists ws', st'. split; [exists f0; exact H1|]. split; [exact Hr|]. split; [exact Hv|]. split; [exact Hh|]. split; [exact Hg|]. split; [exact Hb1|exact Hb2].
  - destruct H2 as [(st' & -> & Hg)|(st' & -> & Hg)]; [left|right]; exists st'; (split; [exists f0; exact H1|exact Hg]).
Qed.
Print Assumptions C70_compiled_call_partial.

(** The reference differs from that only in who the caller of this contract is afterwards
    (C45). *)
Definition same_but_caller (g g' : gctx) : Prop := g' = g_with_caller g (g_caller g') (g_callers g').
Lemma same_refl g : same_but_caller g g. Proof. destruct g; reflexivity. Qed.
Theorem C70_reference_differs_in_the_caller : forall net ds a vs g rs, run_call true false net ds a vs g = Some rs ->
  match rs with
  | Done v g1 => exists g2, run_call false true net ds a vs g = Some (Done v g2) /\ same_but_caller g2 g1
  | Abort c => run_call false true net ds a vs g = Some (Abort c)
  | Early _ _ => False
  end.
Proof.
  intros net ds a vs g rs H. unfold run_call, as_fun in *. cbv zeta in *. set (r := combine _ _) in *.
  assert (K : forall es g x, mapM (map (fun e => eval (CH := ledger_chain) true (run_defs (CH := ledger_chain) true ds) e r) es) g = Some x ->
    mapM (map (fun e => eval (CH := ledger_chain) false (run_defs (CH := ledger_chain) false ds) e r) es) g = Some x).
  { induction es as [|e es IH]; intros h x Hx; cbn [map mapM] in *; [exact Hx|]. unfold bind in *.
    destruct (eval (CH := ledger_chain) true _ e r h) as [y|] eqn:Ey; [|discriminate].
    rewrite (eval_strict (CH := ledger_chain) _ _ (run_strict (CH := ledger_chain) ds) e r h _ Ey). destruct y as [v h1|v h1|c]; try exact Hx.
    destruct (mapM (map (fun e => eval (CH := ledger_chain) true _ e r) es) h1) as [z|] eqn:Ez; [|discriminate]. rewrite (IH _ _ Ez). exact Hx. }
  unfold bind in *. destruct (mapM (map (fun e => eval (CH := ledger_chain) true _ e r) (cl_args a)) g) as [y|] eqn:Ey; [|discriminate]. rewrite (K _ _ _ Ey).
  destruct y as [us g0|v g0|c].
  - unfold call_other in *. destruct (net (cl_to a) (cl_name a)) as [d|]; [|unfold refuse in *; injection H as <-; reflexivity].
    destruct (dp_run d us _) as [w g1|g1]; [|unfold refuse in *; injection H as <-; reflexivity].
    destruct (has_type_dec (cl_ret a) w); [|discriminate]. injection H as <-. eexists. split; [reflexivity|]. destruct g0; reflexivity.
  - injection H as <-. exists g0. split; [reflexivity|apply same_refl].
  - injection H as <-. reflexivity.
Qed.
Print Assumptions C70_reference_differs_in_the_caller.

(** Arguments of the parameters' own types are read as they were written. *)
Lemma fits_refl t : ty_ok t -> ConstProofs.below t t -> fits t t.
Proof.
  induction t using ty_ind'; intros Hok Hb; cbn [fits ty_ok ConstProofs.below] in *; auto.
  - right. split; [reflexivity|]. apply IHt; tauto.
  - split; [apply IHt1; tauto|]. split; [apply IHt2; tauto|right; reflexivity].
  - destruct Hok as (_ & _ & Hok). change (fields_ok fs) in Hok. change (fitss fs fs). change (belows fs fs) in Hb.
    induction H as [|[k t] fs Ht H IH]; cbn [fitss fields_ok belows] in *; [exact I|]. destruct Hok as (O1 & O2), Hb as (_ & B1 & B2). split; [apply Ht; assumption|]. split; [right; reflexivity|apply IH; assumption].
Qed.
Lemma below_self t : ty_ok t -> no_trait t -> ConstProofs.below t t.
Proof.
  induction t using ty_ind'; intros Hok Hn; cbn [ConstProofs.below ty_ok no_trait] in *; try exact I; try contradiction; try lia.
  - destruct Hok. split; [lia|auto].
  - auto.
  - destruct Hok, Hn. auto.
  - destruct Hok as (_ & _ & Hok). change (fields_ok fs) in Hok. change (fields_no_trait fs) in Hn. change (belows fs fs).
    induction H as [|[k t] fs Ht H IH]; cbn [belows fields_ok fields_no_trait] in *; [exact I|]. destruct Hok, Hn. auto.
Qed.
Theorem C70_same_types_pass : forall ts, Forall ty_ok ts -> Forall no_trait ts -> Forall2 passes ts ts.
Proof.
  induction 1 as [|t ts Ht H IH]; intros Hn; inversion Hn; subst; constructor; auto. split; [apply below_self; assumption|]. split; [apply fits_refl; [|apply below_self]; assumption|reflexivity].
Qed.
Print Assumptions C70_same_types_pass.

(** ** Concrete calls *)
Definition other : prin := PCon 26 (repeat 4 20) [99].
Definition m70 : mem := write_bytes m0 320 (prin_bytes other).
(** [(define-public (tok (x (optional uint)) (y uint)) (begin (var-set tok y) (ok y)))] of the contract [other] *)
Definition callee70 : deployed := mkdeployed [TOpt TUInt; TUInt] (TResp TUInt TUInt) (fun vs g =>
  match vs with
  | [_; y] => HOk (COk y) (mkg (g_self g) (g_an g) (g_ft g) (g_nft g) (g_vars g) (g_maps g) (set_var (g_db g) tok y) (g_layers g) (g_ro g) (g_hist g) (g_view g) (g_bhh g) (g_sender g) (g_senders g) (g_caller g) (g_callers g) (g_memory g))
  | _ => HErr g
  end).
Definition net70 : network := fun p n => if prin_eq_dec p other then if list_eq_dec Z.eq_dec n tok then Some callee70 else None else None.
Definition host70 : string -> option (list vt * (list val -> store gctx -> result gctx)) :=
  fun f => if String.eqb f "stdlib.contract_call" then Some (T 10, i_contract_call net70) else assoc f ledger_host.
Definition st70 (sp : Z) : store gctx := mkstore m70 [("stack-pointer", VI32 sp); ("runtime-error-code", VI32 0)] g0.
(** [(contract-call? .other tok (some x) u1)] and [(contract-call? .other tok none u1)] *)
Definition ex_fwd : call_fun := mkcall [("x", TUInt)] (TResp TUInt TUInt) other 320 tok 0 [ESome (EVar TUInt "x"); EArith OAdd TUInt (EVar TUInt "x") [ENum TUInt 1]].
Definition ex_none : call_fun := mkcall [("x", TUInt)] (TResp TUInt TUInt) other 320 tok 0 [ENone (TOpt TNo); ENum TUInt 1].

Lemma other_ok : prin_ok other.
Proof.
  cbn. split; [split; [lia|]; split; [reflexivity|]; repeat (apply Forall_cons; [lia|]); apply Forall_nil|].
  split; [right; exists 99, []; auto|lia].
Qed.
Lemma lits70 sp : 400 <= sp -> sp <= 65536 -> Forall (held m70 (fun a => a < sp)) [(TPrin, CPrin other, 320); (TAscii 3, CAscii tok, 0)].
Proof.
  intros H1 H2. constructor; [|constructor; [|constructor]].
  - split; [exact other_ok|].
    exists 320. split; [reflexivity|]. split; [lia|]. split; [vm_compute; reflexivity|]. split; [split; [lia|]; split; [split; vm_compute; discriminate|vm_compute; reflexivity]|].
    intros x Hx. change (Z.of_nat (length (prin_bytes other))) with 23 in Hx. lia.
  - split; [cbn; split; [lia|repeat (apply Forall_cons; [unfold clarity_ascii; lia|]); apply Forall_nil]|]. apply (ascii_in_mem _ _ 3 tok 0); [vm_compute; reflexivity|lia|cbn; lia|cbn; lia].
Qed.
Lemma module70 a : a = ex_fwd \/ a = ex_none -> call_module net70 host70 [] "fwd" a.
Proof.
  intros Ha. split; [destruct Ha as [->| ->]; reflexivity|intros d []|reflexivity| |reflexivity|reflexivity|destruct Ha as [->| ->]; do 3 eexists; reflexivity].
  intros f Hf. unfold word_imports in Hf. repeat (destruct Hf as [<-|Hf]; [split; reflexivity|]). destruct Hf.
Qed.
Lemma ready70 sp n a : (a = ex_fwd \/ a = ex_none) -> 400 <= sp -> sp + n <= 65536 -> 0 <= n -> call_ready n [] a (st70 sp) sp.
Proof.
  intros Ha H1 H2 H3. split; [reflexivity|eexists; reflexivity|lia| |].
  - change (msize (smem (st70 sp))) with 65536. lia.
  - assert (K : flat_map lits (cl_args a) ++ prog_lits [] = []) by (destruct Ha as [->| ->]; reflexivity). rewrite K.
    assert (K2 : cl_to a = other /\ cl_to_at a = 320 /\ cl_name a = tok /\ cl_name_at a = 0) by (destruct Ha as [->| ->]; auto). destruct K2 as (-> & -> & -> & ->).
    apply lits70; lia.
Qed.
(** the hypotheses are met ... *)
Example C70_ex_hyps : call_module net70 host70 [] "fwd" ex_fwd /\ call_ready (used [] ex_fwd) [] ex_fwd (st70 400) 400 /\
  (forall d, net70 (cl_to ex_fwd) (cl_name ex_fwd) = Some d -> dp_ret d = cl_ret ex_fwd /\ Forall ty_ok (dp_args d) /\ Forall2 passes (map ty_of (cl_args ex_fwd)) (dp_args d)) /\
  rep_list m70 (fun a => a < 400) [TUInt] [CUInt 5] ([VI64 5; VI64 0] ++ []) /\ run_call true false net70 [] ex_fwd [CUInt 5] g0 <> None.
Proof.
  split; [apply module70; auto|]. split; [apply ready70; [auto|lia|vm_compute; discriminate|vm_compute; discriminate]|].
  split; [|split; [constructor; [reflexivity|constructor]|intros H; vm_compute in H; discriminate H]].
  intros d H. assert (d = callee70) as -> by (vm_compute in H; vm_compute; congruence). split; [reflexivity|]. split; [repeat constructor|]. apply C70_same_types_pass; repeat constructor.
Qed.
(** ... and the call does what it should: [(fwd u5)] is [(ok u6)] and the callee's variable is [u6] *)
Example C70_ex_run : match run_call false true net70 [] ex_fwd [CUInt 5] g0, invoke (call_env host70 [] "fwd" ex_fwd) 300 "fwd" [VI64 5; VI64 0] (st70 400) with
  | Some (Done v g), RVals ws st' => v = COk (CUInt 6) /\ ws = [VI32 1; VI64 6; VI64 0; VI64 0; VI64 0] /\ d_var (g_db g) tok = Some (CUInt 6) /\ d_var (g_db (shost st')) tok = Some (CUInt 6) /\
      g_caller g = Some alice /\ g_caller (shost st') = Some self
  | _, _ => False end.
Proof. vm_compute. auto 10. Qed.

(** An argument list whose own type has another size than the parameter's: [none] takes 8
    bytes, an [(optional uint)] 20.  The next argument is read from the wrong place:
    [(contract-call? .other tok none u1)] gives the callee [u0]. *)
Theorem C70_argument_after_none_refuted :
  call_module net70 host70 [] "fwd" ex_none /\ call_ready (used [] ex_none) [] ex_none (st70 400) 400 /\
  (exists g, run_call false true net70 [] ex_none [CUInt 5] g0 = Some (Done (COk (CUInt 1)) g)) /\
  exists ws st', calls (call_env host70 [] "fwd" ex_none) "fwd" [VI64 5; VI64 0] (st70 400) (RVals ws st') /\
    ws = [VI32 1; VI64 0; VI64 0; VI64 0; VI64 0] /\ d_var (g_db (shost st')) tok = Some (CUInt 0).
Proof.
  split; [apply module70; auto|]. split; [apply ready70; [auto|lia|vm_compute; discriminate|vm_compute; discriminate]|]. split; [eexists; reflexivity|].
  destruct (invoke (call_env host70 [] "fwd" ex_none) 300 "fwd" [VI64 5; VI64 0] (st70 400)) as [ws st'| | |] eqn:Hr; try (exfalso; vm_compute in Hr; discriminate Hr).
  exists ws, st'. split; [apply (calls_compute _ 300); [exact Hr|discriminate]|].
  assert (HH : match invoke (call_env host70 [] "fwd" ex_none) 300 "fwd" [VI64 5; VI64 0] (st70 400) with RVals ws st' => ws = [VI32 1; VI64 0; VI64 0; VI64 0; VI64 0] /\ d_var (g_db (shost st')) tok = Some (CUInt 0) | _ => False end) by (vm_compute; auto).
  rewrite Hr in HH. exact HH.
Qed.
Print Assumptions C70_argument_after_none_refuted.

(** The space of the arguments is not in [frame_size]: with exactly the memory the
    generator asks for, a call that should succeed stops.  (The return area is requested
    twice over, 72 bytes for 36, so the arguments have to be larger than that slack.)
    [(contract-call? .other tok (some x) (+ x u1) (+ x u1))] *)
Definition callee71 : deployed := mkdeployed [TOpt TUInt; TUInt; TUInt] (TResp TUInt TUInt) (fun vs g => match vs with [_; _; y] => HOk (COk y) g | _ => HErr g end).
Definition net71 : network := fun p n => if prin_eq_dec p other then if list_eq_dec Z.eq_dec n tok then Some callee71 else None else None.
Definition host71 : string -> option (list vt * (list val -> store gctx -> result gctx)) :=
  fun f => if String.eqb f "stdlib.contract_call" then Some (T 10, i_contract_call net71) else assoc f ledger_host.
Definition ex_long : call_fun := mkcall [("x", TUInt)] (TResp TUInt TUInt) other 320 tok 0 [ESome (EVar TUInt "x"); EArith OAdd TUInt (EVar TUInt "x") [ENum TUInt 1]; EArith OAdd TUInt (EVar TUInt "x") [ENum TUInt 1]].
Theorem C70_argument_space_not_requested_refuted : forall sp, sp = 65536 - requested [] ex_long ->
  call_module net71 host71 [] "fwd" ex_long /\ call_ready (requested [] ex_long) [] ex_long (st70 sp) sp /\
  (exists g, run_call false true net71 [] ex_long [CUInt 5] g0 = Some (Done (COk (CUInt 6)) g)) /\
  exists k st', calls (call_env host71 [] "fwd" ex_long) "fwd" [VI64 5; VI64 0] (st70 sp) (RTrap k st').
Proof.
  intros sp ->. change (requested [] ex_long) with 72. change (65536 - 72) with 65464.
  split; [split; [reflexivity|intros d []|reflexivity| |reflexivity|reflexivity|do 3 eexists; reflexivity]; intros f Hf; unfold word_imports in Hf; repeat (destruct Hf as [<-|Hf]; [split; reflexivity|]); destruct Hf|].
  split; [split; [reflexivity|eexists; reflexivity|lia|change (msize (smem (st70 65464))) with 65536; lia|apply lits70; lia]|].
  split; [eexists; reflexivity|].
  destruct (invoke (call_env host71 [] "fwd" ex_long) 300 "fwd" [VI64 5; VI64 0] (st70 65464)) as [|k st'| |] eqn:Hr; try (exfalso; vm_compute in Hr; discriminate Hr).
  exists k, st'. apply (calls_compute _ 300); [exact Hr|discriminate].
Qed.
Print Assumptions C70_argument_space_not_requested_refuted.
