(** * C62, C63: calls inside a contract, [as-contract] and who is speaking *)
From Coq Require Import ZArith String List Bool Lia.
Import ListNotations.
From Verif Require Import Wasm Std StdEnv WasmLogic WasmTac Spec Mem MemFacts Bytes SpecBytes SpecUtf8 Clar Codec Rep RepFacts ArgProofs Emit Equal
  Ledger SpecLedger LedgerProofs PropLedger PropStore Ast SpecLang Lang Typing LangFacts LangBase LangCall LangPrim LangMain LangPlain LangTotal LangTrace PropLang PropLang2 SpecChain LangHost PropLang3.
Open Scope string_scope.
Open Scope list_scope.
Open Scope Z_scope.

(** nothing but the tables and the memory budget differs: the same sender and caller
    (and those below them), the same savepoints, the same right to write *)
Definition only_tables (g g' : gctx) : Prop := exists d m, g' = g_with_memory (g_with_db g d) m.
(** there is nobody below nobody *)
Definition tidy (g : gctx) : Prop := (g_sender g = None -> g_senders g = []) /\ (g_caller g = None -> g_callers g = []).
Lemma only_refl g : only_tables g g. Proof. exists (g_db g), (g_memory g). destruct g; reflexivity. Qed.
Lemma only_trans a b c : only_tables a b -> only_tables b c -> only_tables a c.
Proof. intros (d & m & ->) (d' & m' & ->). exists d', m'. reflexivity. Qed.
Lemma only_frame g g' : only_tables g g' -> g_layers g' = g_layers g /\ g_ro g' = g_ro g /\ g_sender g' = g_sender g /\ g_senders g' = g_senders g /\ g_caller g' = g_caller g /\ g_callers g' = g_callers g.
Proof. intros (d & m & ->). cbn. auto 10. Qed.
Lemma op_only p vs g rs : ledger_op p vs g = Some rs -> match rs with Done _ g' => only_tables g g' | Early _ _ => False | Abort _ => True end.
Proof.
  intros H. destruct rs as [v g'|v g'|c]; [|exfalso|exact I].
  - apply C61_words_do_what_clarity_says in H. destruct p; cbn [does] in H.
    all: try (destruct H as (_ & -> & _); apply only_refl).
    all: try (destruct H as (? & _ & -> & _); apply only_refl).
    all: assert (PAID : forall d c, paid g d c g' -> only_tables g g') by (intros d c (-> & _); eexists _, _; reflexivity).
    + destruct H as (? & d & _ & _ & -> & _). exists d, (g_memory g). destruct g; reflexivity.
    + destruct H as (? & ? & ? & _ & _ & _ & H & _). eapply PAID; exact H.
    + destruct H as (? & ? & ? & _ & H & _). eapply PAID; exact H.
    + destruct H as (? & ? & _ & H & _). eapply PAID; exact H.
    + destruct H as (? & ? & _ & [(_ & _ & ->)|(_ & _ & (? & H & _) & _)]); [apply only_refl|eapply PAID; exact H].
    + destruct H as (? & ? & _ & [(_ & _ & ->)|(_ & _ & _ & (? & H & _))]); [apply only_refl|eapply PAID; exact H].
    + destruct H as (? & ? & ? & _ & [(_ & _ & ->)|[(_ & _ & _ & ->)|[(_ & _ & _ & _ & ->)|(_ & _ & _ & _ & (? & H & _))]]]); [apply only_refl..|eapply PAID; exact H].
  - unfold ledger_op, ledger_who, ledger_word, spending, refuse in H. destruct p; repeat (match type of H with context [match ?x with _ => _ end] => destruct x end; try discriminate H).
Qed.
Lemma scope_only s keep g g1 g2 g3 : tidy g -> ledger_open s g = Some g1 -> only_tables g1 g2 -> ledger_close s keep g2 = Some g3 ->
  only_tables g g3 /\ g_db g3 = match s, keep with SPublic, true | SContract, _ => g_db g2 | _, _ => g_db g end.
Proof.
  intros (T1 & T2) Ho (d & m & ->) Hc. destruct s; cbn [ledger_open] in Ho; injection Ho as <-.
  - cbn in Hc. injection Hc as <-. split; [|destruct keep; reflexivity]. exists (if keep then d else g_db g), m. destruct g; reflexivity.
  - cbn in Hc. injection Hc as <-. split; [|reflexivity]. exists (g_db g), m. destruct g; reflexivity.
  - cbn in Hc. injection Hc as <-. split; [|destruct keep; reflexivity]. exists d, m. destruct g as [x1 x2 x3 x4 x5 x6 x7 x8 x9 x10 x11 x12 sd sds cl cls x17]. cbn in *.
    destruct sd; [|rewrite (T1 eq_refl)]; (destruct cl; [|rewrite (T2 eq_refl)]); reflexivity.
Qed.
Lemma opened_tidy s g g1 : tidy g -> ledger_open s g = Some g1 -> tidy g1.
Proof. intros (T1 & T2) Ho. destruct s; injection Ho as <-; split; auto; discriminate. Qed.
Lemma only_tidy g g' : only_tables g g' -> tidy g -> tidy g'.
Proof. intros (d & m & ->) H. exact H. Qed.
Definition keeps_rest (g g' : gctx) : Prop := tidy g -> only_tables g g'.
Lemma kr_refl g : keeps_rest g g. Proof. intros _. apply only_refl. Qed.
Lemma kr_trans a b c : keeps_rest a b -> keeps_rest b c -> keeps_rest a c.
Proof. intros H1 H2 T. specialize (H1 T). eapply only_trans; [exact H1|]. apply H2. eapply only_tidy; eassumption. Qed.
Lemma kr_op p vs g : match chain_op (chain := ledger_chain) p vs g with Some (Done _ g') | Some (Early _ g') => keeps_rest g g' | _ => True end.
Proof. cbn [chain_op ledger_chain]. destruct (ledger_op p vs g) as [rs|] eqn:H; [|exact I]. apply op_only in H. destruct rs; [intros _; exact H|contradiction|exact I]. Qed.
Lemma kr_scope s keep (h h1 h2 h3 : gctx) : chain_open (chain := ledger_chain) s h = Some h1 -> keeps_rest h1 h2 -> chain_close (chain := ledger_chain) s keep h2 = Some h3 -> keeps_rest h h3.
Proof. intros Ho H Hc T. apply (scope_only s keep h h1 h2 h3 T Ho); [apply H; eapply opened_tidy; eassumption|exact Hc]. Qed.
Lemma run_only strict ds f vs g v g' : tidy g -> run_defs (CH := ledger_chain) strict ds f vs g = Some (Done v g') -> only_tables g g'.
Proof. intros T H. pose proof (run_follows (CH := ledger_chain) keeps_rest kr_refl kr_trans kr_op kr_scope strict ds f vs g) as K. rewrite H in K. apply K. exact T. Qed.
Lemma framed_tidy g : framed g -> tidy g.
Proof. intros [_ _ _ _ (_ & H1) (_ & H2)]. split; assumption. Qed.

(** ** C63: what a function returns to *)
(** Clarity itself: whatever a program does, its caller finds the sender, the caller, the
    savepoints and the right to write as they were. *)
Theorem C63_evaluation_changes_only_tables : forall ds f vs g v g', tidy g -> run_defs (CH := ledger_chain) false ds f vs g = Some (Done v g') -> only_tables g g'.
Proof. intros ds f vs g v g'. apply run_only. Qed.
Print Assumptions C63_evaluation_changes_only_tables.
(** The compiled program, when nothing inside [as-contract] leaves the function early
    (otherwise the strict evaluator yields nothing): *)
Theorem C63_compiled_changes_only_tables_partial : forall host ds f ts tr vs ws (st : store gctx) sp v g,
  wt_prog ds = true -> own_names ds -> serves (module_env host ds) -> ready ds st sp -> tidy (shost st) ->
  assoc f (prog_sig ds) = Some (ts, tr) -> Forall2 has_type ts vs -> rep_list (smem st) (fun a => a < sp) ts vs ws ->
  run_defs (CH := ledger_chain) true ds f vs (shost st) = Some (Done v g) ->
  behaves (module_env host ds) f ws st sp tr (Done v g) /\ only_tables (shost st) g.
Proof.
  intros host ds f ts tr vs ws st sp v g H1 H2 H3 H4 H5 H6 H7 H8 H9. split; [|eapply run_only; eassumption].
  eapply C61_programs_act_on_tables_partial; eassumption.
Qed.
Print Assumptions C63_compiled_changes_only_tables_partial.
(** Plain programs (nothing leaves [as-contract] early): every call with arguments of the
    declared types ends; if it returns, nothing but the tables and the memory budget has
    changed. *)
Theorem C63_plain_programs_restore_sender_partial : forall host ds f ts tr vs ws (st : store gctx) sp,
  wt_prog ds = true -> plain_prog ds = true -> own_names ds -> serves (module_env host ds) -> ready ds st sp ->
  Forall (declared (shost st)) (prog_uses ds) -> typed_tables (shost st) -> framed (shost st) ->
  assoc f (prog_sig ds) = Some (ts, tr) -> Forall2 has_type ts vs -> rep_list (smem st) (fun a => a < sp) ts vs ws ->
  exists r, calls (module_env host ds) f ws st r /\
    match r with
    | RVals _ st' => only_tables (shost st) (shost st') /\ g_sender (shost st') = g_sender (shost st) /\ g_caller (shost st') = g_caller (shost st)
    | RTrap _ _ => True
    | _ => False
    end.
Proof.
  intros host ds f ts tr vs ws st sp H1 H2 H3 H4 H5 H6 H7 HF H8 H9 H10.
  destruct (C61_plain_programs_partial host ds f ts tr vs ws st sp H1 H2 H3 H4 H5 H6 H7 HF H8 H9 H10) as (rs & Hr & Hb & _).
  destruct rs as [v g| |c]; cbn [behaves] in Hb; [|contradiction|destruct Hb as [(st' & C & _)|(st' & C & _)]; eexists; (split; [exact C|exact I])].
  destruct Hb as (rws & st' & C & _ & _ & Hh & _). eexists. split; [exact C|]. cbv beta iota. rewrite Hh.
  assert (K : only_tables (shost st) g) by (eapply run_only; [apply framed_tidy; exact HF|exact Hr]). split; [exact K|]. apply only_frame in K. tauto.
Qed.
Print Assumptions C63_plain_programs_restore_sender_partial.

(** ** C62: calls to public and read-only functions of the contract *)
(** the state in which the callee starts *)
Definition entered (k : kind) (g g1 : gctx) : Prop := match kind_scope k with Some s => ledger_open s g = Some g1 | None => g1 = g end.
(** A call [(f e1 ... en)] anywhere in a program: the operands are evaluated to [vs], which
    leaves the tables of [g1]; the callee yields [v] and leaves the tables of [g2].  A public
    callee that yields [ok] keeps them; one that yields [err], and every read-only callee,
    leaves the tables as they were when it was called. *)
Definition called_from (ds : list fundef) (k : kind) (f : string) (es : list expr) (r : venv) (g : gctx) (v : value) (g' : gctx) : Prop :=
  exists vs g1 g1' g2,
    mapM (map (fun e => eval (CH := ledger_chain) false (run_defs false ds) e r) es) g = Some (Done vs g1) /\
    entered k g1 g1' /\ run_defs (CH := ledger_chain) false ds f vs g1' = Some (Done v g2) /\
    only_tables g g' /\
    match k, v with
    | KPrivate, _ | KPublic, COk _ => g_db g' = g_db g2
    | _, _ => g_db g' = g_db g1
    end.
Lemma mapM_only ds es r g vs g1 : tidy g -> mapM (map (fun e => eval (CH := ledger_chain) false (run_defs false ds) e r) es) g = Some (Done vs g1) -> only_tables g g1.
Proof.
  intros T H. pose proof (fun A => @f_mapM gctx keeps_rest kr_refl kr_trans A) as K. specialize (K _ (map (fun e => eval (CH := ledger_chain) false (run_defs false ds) e r) es)).
  assert (HF : Forall (follows keeps_rest) (map (fun e => eval (CH := ledger_chain) false (run_defs false ds) e r) es)).
  { apply Forall_forall. intros m Hm. apply in_map_iff in Hm as (e & <- & _).
    apply (eval_follows (CH := ledger_chain) keeps_rest kr_refl kr_trans kr_op kr_scope). intros f vs0. apply (run_follows (CH := ledger_chain) keeps_rest kr_refl kr_trans kr_op kr_scope). }
  specialize (K HF g). rewrite H in K. apply K. exact T.
Qed.
Theorem C62_calls_keep_or_restore_tables : forall ds k f t es r g v g', tidy g ->
  eval (CH := ledger_chain) false (run_defs false ds) (ECall k f t es) r g = Some (Done v g') -> called_from ds k f es r g v g'.
Proof.
  intros ds k f t es r g v g' T H. cbn [eval] in H. unfold bind in H at 1.
  destruct (mapM (map (fun e => eval (CH := ledger_chain) false (run_defs false ds) e r) es) g) as [rs|] eqn:Hm; [|discriminate]. destruct rs as [vs g1|v1 g1|c]; try discriminate.
  pose proof (mapM_only _ _ _ _ _ _ T Hm) as O1. pose proof (only_tidy _ _ O1 T) as T1.
  unfold called_as in H. destruct (kind_scope k) as [s|] eqn:Hk.
  - unfold scoped in H. destruct (chain_open s g1) as [g1'|] eqn:Ho; [|discriminate]. pose proof (opened_tidy _ _ _ T1 Ho) as T1'.
    destruct (run_defs false ds f vs g1') as [rs|] eqn:Hf; [|discriminate]. destruct rs as [v2 g2|v2 g2|c]; [|exfalso; eapply run_leaves; exact Hf|discriminate].
    destruct (chain_close s (is_ok v2) g2) as [g3|] eqn:Hc; [|discriminate]. cbn [option_map] in H. injection H as <- <-.
    destruct (scope_only s (is_ok v2) g1 g1' g2 g3 T1 Ho (run_only _ _ _ _ _ _ _ T1' Hf) Hc) as (O3 & D3).
    exists vs, g1, g1', g2. split; [exact Hm|]. split; [unfold entered; rewrite Hk; exact Ho|]. split; [exact Hf|]. split; [eapply only_trans; eassumption|].
    destruct k; try discriminate Hk; injection Hk as <-; [|exact D3]. destruct v2; exact D3.
  - destruct k; try discriminate Hk. exists vs, g1, g1, g'. split; [exact Hm|]. split; [reflexivity|]. split; [exact H|]. split; [|reflexivity].
    eapply only_trans; [exact O1|]. eapply run_only; eassumption.
Qed.
Print Assumptions C62_calls_keep_or_restore_tables.

(** The compiled function whose body is such a call returns exactly that value and leaves
    exactly those tables, for every well-typed program ([strict]: where it diverges from
    Clarity elsewhere nothing is said)... *)
Theorem C62_compiled_calls_partial : forall host d ds k f t es args ws (st : store gctx) sp v g,
  wt_prog (d :: ds) = true -> own_names (d :: ds) -> serves (module_env host (d :: ds)) -> ready (d :: ds) st sp -> tidy (shost st) ->
  fd_body d = ECall k f t es ->
  Forall2 has_type (map snd (fd_params d)) args -> rep_list (smem st) (fun a => a < sp) (map snd (fd_params d)) args ws ->
  eval (CH := ledger_chain) true (run_defs true ds) (fd_body d) (combine (map fst (fd_params d)) args) (shost st) = Some (Done v g) ->
  behaves (module_env host (d :: ds)) (fd_name d) ws st sp (fd_ret d) (Done v g) /\
  called_from ds k f es (combine (map fst (fd_params d)) args) (shost st) v g.
Proof.
  intros host d ds k f t es args ws st sp v g H1 H2 H3 H4 H5 Hb H6 H7 He. split.
  - apply (body_behaves host d ds args ws st sp (Done v g) H1 H2 (ledger_ok _ H3) H4 H6 H7 He).
  - rewrite Hb in He. eapply (C62_calls_keep_or_restore_tables ds k f t); [exact H5|].
    apply (eval_strict (run_defs true ds) (run_defs false ds) (fun f0 vs0 => run_strict ds f0 vs0)). exact He.
Qed.
Print Assumptions C62_compiled_calls_partial.
Lemma params_vars (ps : list (string * ty)) : Forall (fun e => exists t0 y, e = EVar t0 y) (map (fun p => EVar (snd p) (fst p)) ps).
Proof. induction ps as [|[x t] ps IH]; cbn; constructor; eauto. Qed.
(** ... and, with no condition on the evaluator, for plain programs: a compiled function
    that hands its arguments to a public function and gets [err] leaves the tables
    untouched; if that function is read-only, they are untouched whatever it yields. *)
Theorem C62_failed_calls_leave_no_trace_partial : forall host d ds k f t args ws (st : store gctx) sp,
  wt_prog (d :: ds) = true -> plain_prog (d :: ds) = true -> own_names (d :: ds) -> serves (module_env host (d :: ds)) -> ready (d :: ds) st sp ->
  Forall (PropLang3.declared (shost st)) (prog_uses (d :: ds)) -> typed_tables (shost st) -> framed (shost st) ->
  fd_body d = ECall k f t (map (fun p => EVar (snd p) (fst p)) (fd_params d)) ->
  Forall2 has_type (map snd (fd_params d)) args -> rep_list (smem st) (fun a => a < sp) (map snd (fd_params d)) args ws ->
  (exists tk st', calls (module_env host (d :: ds)) (fd_name d) ws st (RTrap tk st')) \/
  exists v rws st', calls (module_env host (d :: ds)) (fd_name d) ws st (RVals rws st') /\ rep (smem st') (fun _ => True) (fd_ret d) v rws /\ has_type (fd_ret d) v /\
    only_tables (shost st) (shost st') /\
    match k, v with
    | KPrivate, _ | KPublic, COk _ => True
    | _, _ => g_db (shost st') = g_db (shost st)
    end.
Proof.
  intros host d ds k f t args ws st sp H1 H2 H3 H4 H5 H6 H7 HF Hb H8 H9.
  assert (Hf : assoc (fd_name d) (prog_sig (d :: ds)) = Some (map snd (fd_params d), fd_ret d)).
  { cbn [prog_sig map assoc]. unfold def_sig at 1. rewrite String.eqb_refl. reflexivity. }
  destruct (C61_plain_programs_partial host (d :: ds) (fd_name d) _ _ args ws st sp H1 H2 H3 H4 H5 H6 H7 HF Hf H8 H9) as (rs & Hr & Hbe & _).
  destruct rs as [v g| |c]; cbn [behaves] in Hbe; [|contradiction|left; destruct Hbe as [(st' & C & _)|(st' & C & _)]; eexists _, _; exact C].
  right. destruct Hbe as (rws & st' & C & Hrep & Hty & Hh & _). exists v, rws, st'. split; [exact C|]. split; [exact Hrep|]. split; [exact Hty|]. rewrite Hh.
  cbn [run_defs] in Hr. rewrite String.eqb_refl in Hr. unfold as_fun in Hr. rewrite Hb in Hr.
  set (r := combine (map fst (fd_params d)) args) in *.
  destruct (eval false (run_defs false ds) (ECall k f t (map (fun p => EVar (snd p) (fst p)) (fd_params d))) r (shost st)) as [rs|] eqn:He; [|discriminate].
  pose proof (framed_tidy _ HF) as T. destruct rs as [v0 g0|v0 g0|c]; [| |discriminate].
  - injection Hr as <- <-. apply (C62_calls_keep_or_restore_tables ds k f t _ r _ _ _ T) in He. destruct He as (vs & g1 & g1' & g2 & Hm & _ & _ & O & D). split; [exact O|].
    assert (HV : forall es h x, Forall (fun e => exists t0 y, e = EVar t0 y) es -> mapM (map (fun e => eval (CH := ledger_chain) false (run_defs false ds) e r) es) h = Some x -> exists ws0, x = Done ws0 h).
    { clear. induction es as [|e es IH]; intros h x Hes; cbn [map mapM]; [intros H; injection H as <-; eauto|]. inversion Hes as [|? ? (t0 & y & ->) Hes']; subst. cbn [eval]. unfold bind at 1.
      destruct (assoc y r) as [z|]; cbn [of_opt]; [unfold ret at 1|discriminate]. unfold bind. destruct (mapM _ h) as [rs|] eqn:E; [|discriminate].
      destruct (IH _ _ Hes' E) as (ws0 & ->). intros H. injection H as <-. eauto. }
    destruct (HV (map (fun p => EVar (snd p) (fst p)) (fd_params d)) _ _ (params_vars (fd_params d)) Hm) as (ws0 & Hx). injection Hx as _ Hg. subst g1.
    destruct k; [exact I| |]; destruct v0; try exact I; exact D.
  - exfalso. cbn [eval] in He. unfold bind in He at 1.
    destruct (mapM (map (fun e => eval (CH := ledger_chain) false (run_defs false ds) e r) (map (fun p => EVar (snd p) (fst p)) (fd_params d))) (shost st)) as [rs|] eqn:Hm; [|discriminate].
    assert (HV : forall es h x h', Forall (fun e => exists t0 y, e = EVar t0 y) es -> mapM (map (fun e => eval (CH := ledger_chain) false (run_defs false ds) e r) es) h = Some (Early x h') -> False).
    { clear. induction es as [|e es IH]; intros h x h' Hes; cbn [map mapM]; [discriminate|]. inversion Hes as [|? ? (t0 & y & ->) Hes']; subst. cbn [eval]. unfold bind at 1.
      destruct (assoc y r) as [z|]; cbn [of_opt]; [unfold ret at 1|discriminate]. unfold bind. destruct (mapM _ h) as [rs|] eqn:E; [|discriminate].
      destruct rs as [ws0 h1|x1 h1|c]; [discriminate| |discriminate]. intros _. eapply IH; eassumption. }
    destruct rs as [vs g1|x g1|c]; [| |discriminate].
    + unfold called_as in He. destruct (kind_scope k) as [s|]; [|eapply run_leaves; exact He]. unfold scoped in He. destruct (chain_open s g1) as [gx|]; [|discriminate].
      destruct (run_defs false ds f vs gx) as [[vy gy|vy gy|c]|] eqn:Hrun; try discriminate; [|eapply run_leaves; exact Hrun]. destruct (chain_close _ _ _); discriminate.
    + eapply HV; [apply params_vars|exact Hm].
Qed.
Print Assumptions C62_failed_calls_leave_no_trace_partial.

(** ** A concrete program *)
(*  (define-public (bump (x uint))
      (begin (var-set tok (+ (var-get tok) x)) (asserts! (> u5 x) (err u4)) (ok x)))
    (define-private (try-bump (x uint)) (bump x))                                     *)
Definition ex_bump : fundef := mkdef "bump" [("x", TUInt)] (TResp TUInt TUInt)
  (ESeq (EPrim (PVarSet tok 0 TUInt) [EArith OAdd TUInt (EPrim (PVarGet tok 0 TUInt) []) [EVar TUInt "x"]])
  (ESeq (EAsserts (EWord WGt TBool [ENum TUInt 5; EVar TUInt "x"]) (EErr TUInt (ENum TUInt 4)))
        (EOk (EVar TUInt "x") TUInt))).
Definition ex_try (k : kind) : fundef := mkdef "try-bump" [("x", TUInt)] (TResp TUInt TUInt) (ECall k "bump" (TResp TUInt TUInt) [EVar TUInt "x"]).
Definition ds9 (k : kind) : list fundef := [ex_try k; ex_bump].
Lemma ready9 ds n : prog_lits ds = repeat (TAscii 3, CAscii tok, 0) n -> frames ds <= 2000 -> ready ds st9 400.
Proof.
  intros HL HR. split; [reflexivity|eexists; reflexivity|lia| |vm_compute; discriminate|].
  - change (msize (smem st9)) with 65536. lia.
  - rewrite HL. apply Forall_forall. intros x Hx. apply repeat_spec in Hx as ->.
    split; [cbn; split; [lia|repeat (apply Forall_cons; [unfold clarity_ascii; lia|]); apply Forall_nil]|]. apply (ascii_in_mem _ _ 3 tok 0); [vm_compute; reflexivity|lia|cbn; lia|cbn; lia].
Qed.
Lemma serves9 ds : (forall f, In f word_imports -> assoc f std_funs = None /\ assoc f (compile_defs ds) = None) -> serves (module_env host9 ds).
Proof.
  intros H f Hf. destruct (H f Hf) as (H1 & H2). split; [|reflexivity]. cbn [module_env efun]. rewrite H1. exact H2.
Qed.
Lemma typed9 : typed_tables g9.
Proof.
  split; [reflexivity| | | |].
  - intros n t. cbn. unfold nupd. destruct (name_eq_dec n tok); [|discriminate]. intros H. injection H as <-. eexists. split; [reflexivity|cbn; lia].
  - cbn. discriminate.
  - cbn. discriminate.
  - intros n p. cbn. unfold is_u128. lia.
Qed.
Example C62_ex_hyps : forall k, wt_prog (ds9 k) = true /\ plain_prog (ds9 k) = true /\ own_names (ds9 k) /\ serves (module_env host9 (ds9 k)) /\ ready (ds9 k) st9 400 /\
  Forall (PropLang3.declared (shost st9)) (prog_uses (ds9 k)) /\ typed_tables (shost st9) /\ framed (shost st9) /\ tidy (shost st9) /\
  Forall2 has_type [TUInt] [CUInt 7] /\ rep_list (smem st9) (fun a => a < 400) [TUInt] [CUInt 7] ([VI64 7; VI64 0] ++ []).
Proof.
  intros k. split; [destruct k; reflexivity|]. split; [destruct k; reflexivity|]. split. { intros d [<-|[<-|[]]]; vm_compute; reflexivity. }
  split. { apply serves9. intros f Hf. unfold word_imports in Hf. repeat (destruct Hf as [<-|Hf]; [destruct k; vm_compute; split; reflexivity|]). destruct Hf. }
  split. { apply (ready9 _ 2); [destruct k; reflexivity|destruct k; vm_compute; discriminate]. }
  split. { destruct k; repeat (apply Forall_cons; [first [reflexivity|exact I]|]); apply Forall_nil. }
  split; [apply typed9|]. split; [apply framed9; reflexivity|]. split; [split; discriminate|]. split; [constructor; [cbn; lia|constructor]|]. constructor; [split; reflexivity|constructor].
Qed.
(** [u3] is accepted: the variable becomes [u8].  [u7] is refused after the variable was
    set: it is [u5] again; called as a private function it would stay [u12]. *)
Definition ran9 (k : kind) (x : Z) : option (list val * option value) :=
  match invoke (module_env host9 (ds9 k)) 300 "try-bump" [VI64 x; VI64 0] st9 with RVals ws st' => Some (ws, d_var (g_db (shost st')) tok) | _ => None end.
Example C62_ex_run :
  ran9 KPublic 3 = Some ([VI32 1; VI64 3; VI64 0; VI64 0; VI64 0], Some (CUInt 8)) /\
  ran9 KPublic 7 = Some ([VI32 0; VI64 0; VI64 0; VI64 4; VI64 0], Some (CUInt 5)) /\
  ran9 KReadOnly 3 = Some ([VI32 1; VI64 3; VI64 0; VI64 0; VI64 0], Some (CUInt 5)) /\
  ran9 KPrivate 7 = Some ([VI32 0; VI64 0; VI64 0; VI64 4; VI64 0], Some (CUInt 12)).
Proof. vm_compute. auto. Qed.

(** ** C63: leaving [as-contract] early *)
(*  (define-private (leak) (as-contract (begin (asserts! false (err u1)) (ok true))))
    (define-private (who) (begin (is-ok (leak)) tx-sender))                          *)
Definition ex_leak : fundef := mkdef "leak" [] (TResp TBool TUInt)
  (EAsContract (ESeq (EAsserts (EBool false) (EErr TBool (ENum TUInt 1))) (EOk (EBool true) TUInt))).
Definition ex_who : fundef := mkdef "who" [] TPrin (ESeq (EIsOk (ECall KPrivate "leak" (TResp TBool TUInt) [])) (EPrim PTxSender [])).
Definition ds_who : list fundef := [ex_who; ex_leak].
Example C63_ex_hyps : wt_prog ds_who = true /\ own_names ds_who /\ serves (module_env host9 ds_who) /\ ready ds_who st9 400 /\
  Forall (PropLang3.declared (shost st9)) (prog_uses ds_who) /\ typed_tables (shost st9) /\ framed (shost st9).
Proof.
  split; [reflexivity|]. split. { intros d [<-|[<-|[]]]; vm_compute; reflexivity. }
  split. { apply serves9. intros f Hf. unfold word_imports in Hf. repeat (destruct Hf as [<-|Hf]; [vm_compute; split; reflexivity|]). destruct Hf. }
  split. { apply (ready9 _ 0); [reflexivity|vm_compute; discriminate]. }
  split. { repeat (apply Forall_cons; [first [reflexivity|exact I]|]); apply Forall_nil. }
  split; [apply typed9|apply framed9; reflexivity].
Qed.
(** Alice calls [who].  Clarity says [tx-sender] is Alice, and after the call she still is the
    sender; the compiled function returns the contract's principal, and leaves the contract
    as the sender of everything that follows. *)
Theorem C63_sender_restored_refuted :
  g_sender (shost st9) = Some alice /\ alice <> self /\
  (exists g, run_defs (CH := ledger_chain) false ds_who "who" [] (shost st9) = Some (Done (CPrin alice) g) /\ g_sender g = Some alice) /\
  exists ws st', calls (module_env host9 ds_who) "who" [] st9 (RVals ws st') /\ rep (smem st') (fun _ => True) TPrin (CPrin self) ws /\
    g_sender (shost st') = Some self /\ g_caller (shost st') = Some self.
Proof.
  split; [reflexivity|]. split; [discriminate|]. split; [eexists; split; [vm_compute; reflexivity|reflexivity]|].
  destruct (invoke (module_env host9 ds_who) 300 "who" [] st9) as [ws st'| | |] eqn:Hr; try (exfalso; vm_compute in Hr; discriminate Hr).
  exists ws, st'. split; [apply (calls_compute _ 300); [exact Hr|discriminate]|].
  assert (HH : match invoke (module_env host9 ds_who) 300 "who" [] st9 with
    | RVals ws st' => ws = [VI32 400; VI32 24] /\ bytes_at (smem st') 400 24 = prin_bytes self /\ msize (smem st') = 65536 /\ g_sender (shost st') = Some self /\ g_caller (shost st') = Some self
    | _ => False end) by (vm_compute; auto). rewrite Hr in HH. destruct HH as (-> & H1 & H2 & H3 & H4). split; [|auto].
  cbn [rep]. exists 400. split; [reflexivity|]. split; [lia|]. split; [vm_compute; reflexivity|]. split; [|intros x _; exact I].
  rewrite <- H1. apply holds_intro; rewrite ?len_bytes_at; lia.
Qed.
Print Assumptions C63_sender_restored_refuted.
(** without leaving early:  (define-private (speak) {a: tx-sender, b: (as-contract tx-sender), c: contract-caller}) *)
Definition speak_ty : list (string * ty) := [("a", TPrin); ("b", TPrin); ("c", TPrin)].
Definition ex_speak : fundef := mkdef "speak" [] (TTuple speak_ty)
  (ETuple speak_ty [("a", EPrim PTxSender []); ("b", EAsContract (EPrim PTxSender [])); ("c", EPrim PContractCaller [])]).
Example C63_ex_speak : wt_prog [ex_speak] = true /\ plain_prog [ex_speak] = true /\ plain_prog ds_who = false /\
  match run_defs (CH := ledger_chain) false [ex_speak] "speak" [] g9 with Some (Done v g) => v = CTuple [("a", CPrin alice); ("b", CPrin self); ("c", CPrin alice)] /\ g_sender g = Some alice | _ => False end /\
  match invoke (module_env host9 [ex_speak]) 300 "speak" [] st9 with
  | RVals [VI32 a; VI32 la; VI32 b; VI32 lb; VI32 c; VI32 lc] st' => bytes_at (smem st') a (Z.to_nat la) = prin_bytes alice /\ bytes_at (smem st') b (Z.to_nat lb) = prin_bytes self /\
      bytes_at (smem st') c (Z.to_nat lc) = prin_bytes alice /\ g_sender (shost st') = Some alice
  | _ => False
  end.
Proof. vm_compute. auto 10. Qed.
