(** * C71: block information is the chain's, of past blocks only *)
From Coq Require Import ZArith String List Bool Lia.
Import ListNotations.
From Verif Require Import Wasm Std StdEnv WasmLogic WasmTac Spec Mem MemFacts Bytes SpecBytes SpecUtf8 Clar Codec Emit Rep RepFacts WriteProofs ArgProofs
  Ledger LedgerProofs PropLedger PropStore Ast SpecLang Lang Typing LangFacts LangBase LangCtl LangMem LangSeq LangCall LangPrim LangMain LangPlain PropLang SpecChain LangTrace LangHost PropLang3 PropLang4
  SpecPast LangSim AtBlock SpecBlocks Blocks.
Open Scope string_scope.
Open Scope list_scope.
Open Scope Z_scope.

(** ** The module: the program [ds] and a function that asks about a block *)
(** [(define-... (f params) (get-...-info? field height))] *)
Record info_fun := mkask { ia_params : list (string * ty); ia_word : iword; ia_field : field; ia_query : query; ia_import : string; ia_height : expr }.
Definition ia_ret (a : info_fun) : ty := TOpt (query_ty (ia_query a)).
Definition define_info (ds : list fundef) (a : info_fun) : func :=
  define_body (ia_params a) (ia_ret a) (e_block_info (ia_import a) (ia_ret a) (compile (prog_sig ds) (ia_ret a) (ia_height a))).
Definition info_env (host : string -> option (list vt * (list val -> store gctx -> result gctx))) (ds : list fundef) (f : string) (a : info_fun) : env gctx :=
  mkenv (fun n => match assoc n std_funs with Some g => Some g | None => assoc n ((f, define_info ds a) :: compile_defs ds) end) host std_table.
Definition wt_info (ds : list fundef) (f : string) (a : info_fun) : bool :=
  wt_prog ds && negb (has_key f (map (fun d => (fd_name d, fd_ret d)) ds)) &&
  wt (prog_sig ds) (ia_ret a) (ia_params a) (ia_height a) && (if ty_eq_dec (ty_of (ia_height a)) TUInt then true else false).
Record info_module (ci : chain_info) (host : string -> option (list vt * (list val -> store gctx -> result gctx))) (ds : list fundef) (f : string) (a : info_fun) : Prop := {
  im_typed : wt_info ds f a = true;
  im_own : own_names ds;
  im_name : assoc f std_funs = None;
  im_words : serves (info_env host ds f a);
  im_meant : meant (ia_word a) (ia_field a) = Some (ia_query a);
  im_import : import_of (ia_word a) (ia_field a) = Some (ia_import a);
  im_free : efun (info_env host ds f a) (ia_import a) = None;
  im_ask : host (ia_import a) = info_host ci (ia_import a) }.
Definition info_room (ds : list fundef) (a : info_fun) : Z := Lang.frame (prog_sig ds) (ia_height a) + call_stack_size (ia_ret a) true true + frames ds.
Record info_ready (ds : list fundef) (a : info_fun) (st : store gctx) (sp : Z) : Prop := {
  ir_sp : gget (sglob st) "stack-pointer" = Some (VI32 sp);
  ir_err : exists w, gget (sglob st) "runtime-error-code" = Some w;
  ir_pos : 0 <= sp;
  ir_room : sp + info_room ds a <= msize (smem st) <= 2 ^ 31 - 1;
  ir_lits : Forall (held (smem st) (fun a => a < sp)) (lits (ia_height a) ++ prog_lits ds) }.

(** ** What the words mean *)
Definition run_info (strict : bool) (ci : chain_info) (ds : list fundef) (a : info_fun) (vs : list value) (g : gctx) : option (res gctx value) :=
  let r := combine (map fst (ia_params a)) vs in
  as_fun (bind (eval (CH := ledger_chain) strict (run_defs (CH := ledger_chain) strict ds) (ia_height a) r) (block_info ci (ia_word a) (ia_query a))) g.

(** The height is evaluated; then nothing changes any more.  The result is [none] when the
    height is out of sight or the chain has nothing there, and else [some] of what the chain
    answers to the query behind the property, at that height, seen from the block the
    expression runs in. *)
Theorem C71_meaning_of_block_info : forall ci ds a vs g v g', run_info false ci ds a vs g = Some (Done v g') ->
  let ev := eval (CH := ledger_chain) false (run_defs (CH := ledger_chain) false ds) (ia_height a) (combine (map fst (ia_params a)) vs) in
  ev g = Some (Early v g') \/
  exists h, ev g = Some (Done (CUInt h) g') /\
    ((in_sight ci (ia_word a) h (g_view g') = false /\ v = CNone) \/
     (in_sight ci (ia_word a) h (g_view g') = true /\ ci_ask ci (ia_query a) h (g_view g') = Some None /\ v = CNone) \/
     (exists x, in_sight ci (ia_word a) h (g_view g') = true /\ ci_ask ci (ia_query a) h (g_view g') = Some (Some x) /\ v = CSome x)).
Proof.
  intros ci ds a vs g v g' H ev. unfold run_info, as_fun, bind in H. cbv zeta in H. fold ev in H.
  destruct (ev g) as [[u g1|u g1|c]|]; try discriminate; [|injection H as <- <-; left; reflexivity].
  right. unfold block_info in H. destruct u as [|h| | | | | | | | | | | |]; try discriminate. unfold answer in H.
  destruct (in_sight ci (ia_word a) h (g_view g1)) eqn:Hs.
  - destruct (ci_ask ci (ia_query a) h (g_view g1)) as [[x|]|] eqn:Ha; try discriminate; injection H as <- <-; exists h; (split; [reflexivity|]); right; [right; exists x; auto|left; auto].
  - injection H as <- <-. exists h. split; [reflexivity|]. left. auto.
Qed.
Print Assumptions C71_meaning_of_block_info.

(** Nothing of the present block or a later one is ever answered, except about the burn chain. *)
Theorem C71_no_future : forall ci ds a vs g x g', ia_word a <> WBurn -> stays (ia_height a) = true ->
  run_info false ci ds a vs g = Some (Done (CSome x) g') ->
  exists h, eval (CH := ledger_chain) false (run_defs (CH := ledger_chain) false ds) (ia_height a) (combine (map fst (ia_params a)) vs) g = Some (Done (CUInt h) g') /\
    h < ci_now ci (g_view g') /\ ci_ask ci (ia_query a) h (g_view g') = Some (Some x).
Proof.
  intros ci ds a vs g x g' Hw Hs H. apply C71_meaning_of_block_info in H. cbv zeta in H. destruct H as [H|(h & He & H)].
  - exfalso. revert H. apply stays_calm; [|intros; apply run_calm|exact Hs]. intros p us k w k' Hp. apply op_only in Hp. exact Hp.
  - exists h. split; [exact He|]. destruct H as [(_ & H)|[(_ & _ & H)|(y & H1 & H2 & H)]]; try discriminate. injection H as <-. split; [|exact H2].
    destruct (ia_word a); try contradiction; cbn [in_sight] in H1; apply Z.ltb_lt; exact H1.
Qed.
Print Assumptions C71_no_future.

(** ** What the compiled function does *)
Lemma info_fun_ok ci host ds f a L : good_info ci -> info_module ci host ds f a -> incl (lits (ia_height a) ++ prog_lits ds) L ->
  fun_ok (CH := ledger_chain) (info_env host ds f a) L (info_room ds a) (fun _ vs h => run_info true ci ds a vs h) f (map snd (ia_params a)) (ia_ret a).
Proof.
  intros Hgood [H1 H2 H3 H4 H5 H6 H7 H8] HL. unfold wt_info in H1. repeat match goal with H : _ && _ = true |- _ => apply andb_prop in H as (? & ?) end.
  set (E := info_env host ds f a) in *.
  assert (HE : has_std E) by (split; [|reflexivity]; intros n g Hg; unfold E, info_env; cbn [efun]; rewrite Hg; reflexivity).
  pose proof (incl_app_l _ _ _ HL) as HL1. pose proof (incl_app_r' _ _ _ HL) as HL2.
  assert (HF : forall n fn, assoc n (compile_defs ds) = Some fn -> efun E n = Some fn).
  { intros n fn Hn. unfold E, info_env. cbn [efun]. rewrite (defs_own _ H2 _ _ Hn). cbn [assoc]. destruct (String.eqb_spec f n) as [->|]; [|exact Hn]. exfalso.
    assert (K : has_key n (map (fun d => (fd_name d, fd_ret d)) ds) = true).
    { revert Hn. clear. unfold has_key. induction ds as [|d ds IH]; cbn [compile_defs map assoc]; [discriminate|]. destruct (String.eqb (fd_name d) n); auto. }
    match goal with H : negb _ = true |- _ => rewrite K in H; discriminate end. }
  destruct (prog_ok (CH := ledger_chain) E HE (ledger_ok E H4) L ds ltac:(assumption) HL2 HF) as (F0 & P1).
  pose proof (expr_ok (CH := ledger_chain) E HE (prog_sig ds) (ia_ret a) L (frames ds) F0 _ (ledger_ok E H4) P1 (ia_height a) (ia_params a) ltac:(assumption) HL1) as IH.
  match goal with H : (if ty_eq_dec ?x ?y then _ else _) = true |- _ => destruct (ty_eq_dec x y) as [Hty|]; [rewrite Hty in IH|discriminate H] end.
  pose proof (block_info_ok E ci (ia_word a) (ia_field a) (ia_query a) (ia_import a) Hgood H5 H6 H7 H8 (ia_ret a) L (frames ds) F0 _ _ _ _ IH) as HI.
  eapply (body_ok (CH := ledger_chain) E L (frames ds)); [exact F0|exact HI| |reflexivity].
  unfold E, info_env. cbn [efun assoc]. rewrite H3, String.eqb_refl. reflexivity.
Qed.
(** Each of the 21 properties, compiled, gives just that. *)
Theorem C71_compiled_block_info : forall ci host ds f a vs ws (st : store gctx) sp rs,
  good_info ci -> info_module ci host ds f a -> info_ready ds a st sp ->
  Forall2 has_type (map snd (ia_params a)) vs -> rep_list (smem st) (fun a => a < sp) (map snd (ia_params a)) vs ws ->
  run_info true ci ds a vs (shost st) = Some rs -> behaves (info_env host ds f a) f ws st sp (ia_ret a) rs.
Proof.
  intros ci host ds f a vs ws st sp rs Hgood HM [R1 R2 R3 R4 R5] Hty Hrep Hrs.
  destruct (info_fun_ok ci host ds f a _ Hgood HM (incl_refl _)) as (_ & K).
  assert (Hvis : forall a, a < sp -> vis (fun _ => True) sp a) by (intros x Hx; split; auto).
  assert (HL : Forall (held (smem st) (vis (fun _ => True) sp)) (lits (ia_height a) ++ prog_lits ds)). { eapply Forall_impl; [|exact R5]. intros x. apply held_frame; auto. }
  assert (HA : rep_list (smem st) (vis (fun _ => True) sp) (map snd (ia_params a)) vs ws) by (eapply rep_list_frame; [| | |exact Hrep]; auto).
  specialize (K vs ws st sp (fun _ => True) rs R1 R2 R3 (fun _ _ => I) HL). change (chain_cap (HS := gctx)) with (2 ^ 31 - 1) in K. specialize (K ltac:(lia) ltac:(lia) HA Hty Hrs). destruct K as (f0 & r & H1 & H2).
  destruct rs as [v h|v h|c]; [|contradiction|].
  - destruct H2 as (ws' & st' & -> & (Hb1 & Hb2) & Hg & Hh & Hr & Hv). exists ws', st'. split; [exists f0; exact H1|]. split; [exact Hr|]. split; [exact Hv|]. split; [exact Hh|]. split; [exact Hg|]. split; [exact Hb1|exact Hb2].
  - destruct H2 as [(st' & -> & Hg)|(st' & -> & Hg)]; [left|right]; exists st'; (split; [exists f0; exact H1|exact Hg]).
Qed.
Print Assumptions C71_compiled_block_info.
(** a strict result is the reference result *)
Theorem C71_strict_is_reference : forall ci ds a vs g rs, run_info true ci ds a vs g = Some rs -> run_info false ci ds a vs g = Some rs.
Proof.
  intros ci ds a vs g rs H. unfold run_info, as_fun, bind in *. cbv zeta in *. set (r := combine _ _) in *.
  destruct (eval (CH := ledger_chain) true _ (ia_height a) r g) as [x|] eqn:Ex; [|discriminate].
  rewrite (eval_strict (CH := ledger_chain) _ _ (run_strict (CH := ledger_chain) ds) (ia_height a) r g _ Ex). exact H.
Qed.
Print Assumptions C71_strict_is_reference.

(** ** Concrete questions *)
(** a chain at height 100, whose block [h] was built at [1000 + h] by [alice], with a reward
    known up to height 50 *)
Definition ci71 : chain_info := mkinfo (fun _ => 100) (fun q h _ =>
  match q with
  | QTime => Some (Some (CUInt (1000 + h)))
  | QMiner => Some (Some (CPrin alice))
  | QReward => Some (if h <? 50 then Some (CUInt 7) else None)
  | QPox => Some (if h =? 300 then Some (CTuple [("addrs", CList [CTuple [("hashbytes", CBuff [1; 2]); ("version", CBuff [0])]]); ("payout", CUInt 9)]) else None)
  | _ => None
  end).
Lemma good71 : good_info ci71.
Proof.
  split; [intros w; cbn; lia|]. intros q h w x Hh H. destruct q; try discriminate H.
  - assert (x = CUInt (1000 + h)) as -> by (unfold ci71 in H; cbn [ci_ask] in H; congruence). cbn [query_ty has_type]. change (2 ^ 32) with 4294967296 in Hh. change (2 ^ 128) with 340282366920938463463374607431768211456. lia.
  - injection H as <-. exact alice_ok.
  - unfold ci71 in H. cbn [ci_ask] in H. destruct (h <? 50); inversion H; subst. cbn [query_ty has_type]. lia.
  - unfold ci71 in H. cbn [ci_ask] in H. destruct (h =? 300); inversion H; subst. 
    match goal with |- has_type ?t ?v => assert (K : (if has_type_dec t v then true else false) = true) by (vm_compute; reflexivity); destruct (has_type_dec t v); [assumption|discriminate] end.
Qed.
Definition host71 : string -> option (list vt * (list val -> store gctx -> result gctx)) :=
  fun f => match assoc f ledger_host with Some k => Some k | None => info_host ci71 f end.
Definition ask_time : info_fun := mkask [("x", TUInt)] WStacks FTime QTime "stdlib.get_stacks_block_info_time_property" (EVar TUInt "x").
Definition ask_reward : info_fun := mkask [("x", TUInt)] WTenure FReward QReward "stdlib.get_tenure_info_block_reward_property" (EArith OAdd TUInt (EVar TUInt "x") [ENum TUInt 1]).
Definition ask_miner : info_fun := mkask [("x", TUInt)] WBlock FMiner QMiner "stdlib.get_block_info_miner_address_property" (EVar TUInt "x").
Definition ask_pox : info_fun := mkask [("x", TUInt)] WBurn FPoxAddrs QPox "stdlib.get_burn_block_info_pox_addrs_property" (EVar TUInt "x").
Definition st71 (sp : Z) : store gctx := mkstore m0 [("stack-pointer", VI32 sp); ("runtime-error-code", VI32 0)] g0.
Lemma module71 a : In a [ask_time; ask_reward; ask_miner; ask_pox] -> info_module ci71 host71 [] "ask" a.
Proof.
  intros Ha. cbn [In] in Ha. destruct Ha as [<-|[<-|[<-|[<-|[]]]]]; (split; [reflexivity|intros d []|reflexivity| |reflexivity|reflexivity|reflexivity|reflexivity]);
    intros f Hf; unfold word_imports in Hf; repeat (destruct Hf as [<-|Hf]; [split; reflexivity|]); destruct Hf.
Qed.
Example C71_ex_hyps : Forall (fun a => info_module ci71 host71 [] "ask" a /\ info_ready [] a (st71 400) 400 /\
    rep_list m0 (fun a => a < 400) [TUInt] [CUInt 300] ([VI64 300; VI64 0] ++ []) /\ run_info true ci71 [] a [CUInt 300] g0 <> None) [ask_time; ask_reward; ask_miner; ask_pox].
Proof.
  repeat (apply Forall_cons; [split; [apply module71; cbn; auto|]; split;
    [split; [reflexivity|eexists; reflexivity|lia| |constructor]|split; [constructor; [reflexivity|constructor]|intros H; vm_compute in H; discriminate H]]|]); [| | | |apply Forall_nil];
    (split; vm_compute; discriminate).
Qed.
Definition ask (a : info_fun) (h : Z) : option (list val) :=
  match invoke (info_env host71 [] "ask" a) 300 "ask" [VI64 (h mod 2 ^ 64); VI64 (h / 2 ^ 64)] (st71 400) with RVals ws _ => Some ws | _ => None end.
(** [(get-stacks-block-info? time u99)] is [(some u1099)]; of the present block there is
    [none], and of heights that agree with a past one in their low 64 bits too *)
Example C71_ex_time : ask ask_time 99 = Some [VI32 1; VI64 1099; VI64 0] /\
  match ask ask_time 100, ask ask_time (2 ^ 64 + 5), ask ask_time (2 ^ 32 + 5) with
  | Some (VI32 0 :: _), Some (VI32 0 :: _), Some (VI32 0 :: _) => True | _, _, _ => False end.
Proof. vm_compute. auto. Qed.
(** a reward may be unknown yet *)
Example C71_ex_reward : ask ask_reward 48 = Some [VI32 1; VI64 7; VI64 0] /\ match ask ask_reward 49 with Some (VI32 0 :: _) => True | _ => False end.
Proof. vm_compute. auto. Qed.
(** the burn chain may be ahead *)
Example C71_ex_pox : match ask ask_pox 300, ask ask_pox 301 with Some (VI32 1 :: ws), Some (VI32 0 :: _) => skipn 2 ws = [VI64 9; VI64 0] | _, _ => False end.
Proof. vm_compute. auto. Qed.
(** the table is complete: a property has an import exactly when it has a meaning, no two
    meanings share an import, and what the linker wired to it is the query meant, with its type *)
Theorem C71_properties_are_wired : forall w f,
  match meant w f, import_of w f with
  | Some q, Some i => assoc i (match w with WBurn => burn_info | _ => look_back end) = Some (q, query_ty q)
  | None, None => True
  | _, _ => False
  end.
Proof. destruct w, f; reflexivity || exact I. Qed.
Theorem C71_imports_are_distinct : forall w f w' f' i, import_of w f = Some i -> import_of w' f' = Some i -> w = w' /\ f = f'.
Proof. intros w f w' f' i H1 H2. destruct w, f; inversion H1; subst; destruct w', f'; inversion H2; auto. Qed.
Print Assumptions C71_properties_are_wired.
Print Assumptions C71_imports_are_distinct.
