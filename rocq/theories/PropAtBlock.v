(** * C68: an [at-block] expression looks into the past, and nothing else does *)
From Coq Require Import ZArith String List Bool Lia.
Import ListNotations.
From Verif Require Import Wasm Std StdEnv WasmLogic WasmTac Spec Mem MemFacts Bytes SpecBytes SpecUtf8 Clar Codec Rep RepFacts ArgProofs
  Ledger LedgerProofs PropLedger PropStore Ast SpecLang Lang Typing LangBase LangMem LangSeq LangCall LangPrim LangMain LangPlain PropLang SpecChain LangTrace LangHost PropLang3 PropLang4
  SpecPast LangSim AtBlock.
Open Scope string_scope.
Open Scope list_scope.
Open Scope Z_scope.

(** ** The module: the program [ds] and a function [f] that is an [at-block] expression *)
Definition at_env (host : string -> option (list vt * (list val -> store gctx -> result gctx))) (ds : list fundef) (f : string) (a : at_fun) : env gctx :=
  mkenv (fun n => match assoc n std_funs with Some g => Some g | None => assoc n ((f, define_at ds a) :: compile_defs ds) end) host std_table.
Definition wt_at (ds : list fundef) (f : string) (a : at_fun) : bool :=
  wt_prog ds && negb (has_key f (map (fun d => (fd_name d, fd_ret d)) ds)) &&
  wt (prog_sig ds) (at_ret a) (at_params a) (at_hash a) && widens (ty_of (at_hash a)) (TBuff 32) &&
  wt (prog_sig ds) (at_ret a) (at_params a) (at_body a) && widens (ty_of (at_body a)) (at_ret a).
Record at_module (host : string -> option (list vt * (list val -> store gctx -> result gctx))) (ds : list fundef) (f : string) (a : at_fun) : Prop := {
  am_typed : wt_at ds f a = true;
  am_own : own_names ds;
  am_name : assoc f std_funs = None;
  am_words : serves (at_env host ds f a);
  am_enter : imports_at_block (at_env host ds f a) "stdlib.enter_at_block";
  am_exit : imports_at_block (at_env host ds f a) "stdlib.exit_at_block" }.
Record at_ready (ds : list fundef) (a : at_fun) (st : store gctx) (sp : Z) : Prop := {
  ar_sp : gget (sglob st) "stack-pointer" = Some (VI32 sp);
  ar_err : exists w, gget (sglob st) "runtime-error-code" = Some w;
  ar_pos : 0 <= sp;
  ar_room : sp + (Lang.frame (prog_sig ds) (at_hash a) + Lang.frame (prog_sig ds) (at_body a) + frames ds) <= msize (smem st) <= 2 ^ 31 - 1;
  ar_lits : Forall (held (smem st) (fun a => a < sp)) (lits (at_hash a) ++ lits (at_body a) ++ prog_lits ds) }.

(** ** What [at-block] means *)
(** [(at-block h e)] evaluates [h], which must be the 32 bytes of a known block; its result
    is the one [e] has on the tables of that block (a value, the value the function is left
    with, or an abort), and the state is the one [h] left. *)
Theorem C68_meaning_of_at_block : forall ds a vs g v g',
  run_at false true ds a vs g = Some (Done v g') ->
  let r := combine (map fst (at_params a)) vs in
  let ev := fun e g => eval (CH := ledger_chain) false (run_defs (CH := ledger_chain) false ds) e r g in
  ev (at_hash a) g = Some (Early v g') \/
  exists h g0 d g1, ev (at_hash a) g = Some (Done (CBuff h) g0) /\ length h = 32%nat /\ g_hist g0 h = Some d /\
    (ev (at_body a) (as_of d (in_past h g0)) = Some (Done v g1) \/ ev (at_body a) (as_of d (in_past h g0)) = Some (Early v g1)) /\
    (tidy g0 -> g' = g0).
Proof.
  intros ds a vs g v g' H r ev. unfold run_at, as_fun in H. fold r in H. unfold at_block in H. change (eval false (run_defs false ds) (at_hash a) r g) with (ev (at_hash a) g) in H.
  destruct (ev (at_hash a) g) as [[x g0|x g0|c]|] eqn:Eh; try discriminate; [|injection H as <- <-; left; reflexivity].
  right. destruct x as [| | | | |h| | | | | | | |]; try discriminate. destruct (Nat.eqb_spec (length h) 32) as [Hl|]; [|discriminate]. cbn [negb] in H. destruct (g_memory g0 <? 1); [discriminate|].
  destruct (g_hist g0 h) as [d|] eqn:Hd; [|discriminate].
  assert (HP : past_tables (in_past h g0) = Some d) by (destruct g0; exact Hd).
  destruct (past_sim d) as (S1 & S2 & S3). pose proof (eval_sim _ S1 S2 S3 _ _ (run_sim _ S1 S2 S3 ds) (at_body a) r (in_past h g0) (as_of d (in_past h g0)) (conj HP eq_refl)) as K.
  pose proof (past_eval_same false ds (at_body a) r (in_past h g0)) as P.
  destruct (eval (CH := past_chain) false _ (at_body a) r (in_past h g0)) as [[x g2|x g2|c]|]; try discriminate; cbn [matched] in K;
    destruct K as (g1 & K & _); destruct (leave_past g2) as [g3|] eqn:Hlv; try discriminate; cbn [option_map] in H; injection H as <- <-;
    exists h, g0, d, g1; (split; [reflexivity|]); (split; [exact Hl|]); (split; [exact Hd|]); (split; [first [left; exact K|right; exact K]|]);
    intros T; rewrite (P ltac:(destruct g0; exact T)), leave_entered in Hlv; injection Hlv as <-; reflexivity.
Qed.
Print Assumptions C68_meaning_of_at_block.
(** nothing changes but what the block hash expression changes *)
Theorem C68_at_block_changes_no_table : forall ds a vs g v g', tidy g -> stays (at_hash a) = true ->
  run_at false true ds a vs g = Some (Done v g') ->
  exists h, eval (CH := ledger_chain) false (run_defs (CH := ledger_chain) false ds) (at_hash a) (combine (map fst (at_params a)) vs) g = Some (Done h g').
Proof.
  intros ds a vs g v g' T Hs H. apply C68_meaning_of_at_block in H. cbv zeta in H. destruct H as [H|(h & g0 & d & g1 & H1 & _ & _ & _ & H2)].
  - exfalso. revert H. apply stays_calm; [|intros; apply run_calm|exact Hs]. intros p us k w k' Hp. apply op_only in Hp. exact Hp.
  - exists (CBuff h). rewrite H2; [exact H1|]. pose proof (eval_follows (CH := ledger_chain) keeps_rest kr_refl kr_trans kr_op kr_scope false (run_defs (CH := ledger_chain) false ds)
      (fun f us => run_follows (CH := ledger_chain) keeps_rest kr_refl kr_trans kr_op kr_scope false ds f us) (at_hash a) (combine (map fst (at_params a)) vs) g) as K.
    rewrite H1 in K. eapply only_tidy; [apply K; exact T|exact T].
Qed.
Print Assumptions C68_at_block_changes_no_table.

(** ** What the compiled function does *)
Lemma at_fun_ok host ds f a L : at_module host ds f a -> incl (lits (at_hash a) ++ lits (at_body a) ++ prog_lits ds) L ->
  fun_ok (CH := ledger_chain) (at_env host ds f a) L (Lang.frame (prog_sig ds) (at_hash a) + Lang.frame (prog_sig ds) (at_body a) + frames ds)
    (fun _ vs h => run_at true false ds a vs h) f (map snd (at_params a)) (at_ret a).
Proof.
  intros [H1 H2 H3 H4 H5 H6] HL. unfold wt_at in H1. repeat match goal with H : _ && _ = true |- _ => apply andb_prop in H as (? & ?) end.
  set (E := at_env host ds f a) in *.
  assert (HE : has_std E) by (split; [|reflexivity]; intros n g Hg; unfold E, at_env; cbn [efun]; rewrite Hg; reflexivity).
  pose proof (incl_app_l _ _ _ HL) as HL1. pose proof (incl_app_r' _ _ _ HL) as HL'. pose proof (incl_app_l _ _ _ HL') as HL2. pose proof (incl_app_r' _ _ _ HL') as HL3. clear HL'.
  assert (HF : forall n fn, assoc n (compile_defs ds) = Some fn -> efun E n = Some fn).
  { intros n fn Hn. unfold E, at_env. cbn [efun]. rewrite (defs_own _ H2 _ _ Hn). cbn [assoc]. destruct (String.eqb_spec f n) as [->|]; [|exact Hn]. exfalso.
    assert (K : has_key n (map (fun d => (fd_name d, fd_ret d)) ds) = true).
    { revert Hn. clear. unfold has_key. induction ds as [|d ds IH]; cbn [compile_defs map assoc]; [discriminate|]. destruct (String.eqb (fd_name d) n); auto. }
    match goal with H : negb _ = true |- _ => rewrite K in H; discriminate end. }
  destruct (prog_ok (CH := ledger_chain) E HE (ledger_ok E H4) L ds ltac:(assumption) HL3 HF) as (F0 & P1).
  destruct (prog_ok (CH := past_chain) E HE (past_ok E H4) L ds ltac:(assumption) HL3 HF) as (_ & P2).
  pose proof (impl_widen _ _ _ _ _ _ _ _ _ _ (expr_ok (CH := ledger_chain) E HE (prog_sig ds) (at_ret a) L (frames ds) F0 _ (ledger_ok E H4) P1 (at_hash a) (at_params a) ltac:(assumption) HL1) ltac:(eassumption)) as IH.
  pose proof (impl_widen _ _ _ _ _ _ _ _ _ _ (expr_ok (CH := past_chain) E HE (prog_sig ds) (at_ret a) L (frames ds) F0 _ (past_ok E H4) P2 (at_body a) (at_params a) ltac:(assumption) HL2) ltac:(eassumption)) as IB.
  eapply (body_ok (CH := ledger_chain) E L (frames ds)); [exact F0|exact (at_block_ok E H5 H6 _ _ _ _ _ _ _ _ _ _ _ IH IB)| |reflexivity].
  unfold E, at_env. cbn [efun assoc]. rewrite H3, String.eqb_refl. reflexivity.
Qed.
Theorem C68_compiled_at_block_partial : forall host ds f a vs ws (st : store gctx) sp rs,
  at_module host ds f a -> at_ready ds a st sp ->
  Forall2 has_type (map snd (at_params a)) vs -> rep_list (smem st) (fun a => a < sp) (map snd (at_params a)) vs ws ->
  run_at true false ds a vs (shost st) = Some rs -> behaves (at_env host ds f a) f ws st sp (at_ret a) rs.
Proof.
  intros host ds f a vs ws st sp rs HM [R1 R2 R3 R4 R5] Hty Hrep Hrs.
  destruct (at_fun_ok host ds f a _ HM (incl_refl _)) as (_ & K).
  assert (Hvis : forall a, a < sp -> vis (fun _ => True) sp a) by (intros x Hx; split; auto).
  assert (HL : Forall (held (smem st) (vis (fun _ => True) sp)) (lits (at_hash a) ++ lits (at_body a) ++ prog_lits ds)). { eapply Forall_impl; [|exact R5]. intros x. apply held_frame; auto. }
  assert (HA : rep_list (smem st) (vis (fun _ => True) sp) (map snd (at_params a)) vs ws) by (eapply rep_list_frame; [| | |exact Hrep]; auto).
  specialize (K vs ws st sp (fun _ => True) rs R1 R2 R3 (fun _ _ => I) HL). change (chain_cap (HS := gctx)) with (2 ^ 31 - 1) in K. specialize (K ltac:(lia) ltac:(lia) HA Hty Hrs). destruct K as (f0 & r & H1 & H2).
  destruct rs as [v h|v h|c]; [|contradiction|].
  - destruct H2 as (ws' & st' & -> & (Hb1 & Hb2) & Hg & Hh & Hr & Hv). exists ws', st'. split; [exists f0; exact H1|]. split; [exact Hr|]. split; [exact Hv|]. split; [exact Hh|]. split; [exact Hg|]. split; [exact Hb1|exact Hb2].
  - destruct H2 as [(st' & -> & Hg)|(st' & -> & Hg)]; [left|right]; exists st'; (split; [exists f0; exact H1|exact Hg]).
Qed.
Print Assumptions C68_compiled_at_block_partial.

(** A strict result is the reference result, if the expression contains no word that
    leaves the function ... *)
Lemma at_strict ds a vs g rs : run_at true false ds a vs g = Some rs -> stays (at_body a) = true -> run_at false true ds a vs g = Some rs.
Proof.
  intros H Hs. unfold run_at, as_fun in *. set (r := combine _ _) in *. unfold at_block in *.
  pose proof (eval_strict (CH := ledger_chain) _ _ (run_strict (CH := ledger_chain) ds) (at_hash a) r g) as K1.
  destruct (eval (CH := ledger_chain) true _ (at_hash a) r g) as [x|]; [|discriminate]. rewrite (K1 _ eq_refl). destruct x as [x g0|x g0|c]; try exact H.
  destruct x as [| | | | |h| | | | | | | |]; try exact H. destruct (negb _); [exact H|]. destruct (g_memory g0 <? 1); [exact H|]. destruct (g_hist g0 h); [|exact H].
  pose proof (eval_strict (CH := past_chain) _ _ (run_strict (CH := past_chain) ds) (at_body a) r (in_past h g0)) as K2.
  destruct (eval (CH := past_chain) true _ (at_body a) r (in_past h g0)) as [x|] eqn:Eb; [|discriminate]. rewrite (K2 _ eq_refl). destruct x as [x g2|x g2|c]; try exact H.
  exfalso. revert Eb. apply (stays_calm (CH := past_chain) past_never); [|exact Hs]. intros n us. apply run_calm.
Qed.
(** ... so that then the compiled function returns what the expression is in the state as of
    the block, and leaves the tables of the present as the block hash expression did: *)
Theorem C68_at_block_is_the_past_partial : forall host ds f a vs ws (st : store gctx) sp rs,
  at_module host ds f a -> at_ready ds a st sp -> tidy (shost st) -> stays (at_hash a) = true -> stays (at_body a) = true ->
  Forall2 has_type (map snd (at_params a)) vs -> rep_list (smem st) (fun a => a < sp) (map snd (at_params a)) vs ws ->
  run_at true false ds a vs (shost st) = Some rs ->
  run_at false true ds a vs (shost st) = Some rs /\ behaves (at_env host ds f a) f ws st sp (at_ret a) rs /\
  match rs with
  | Done v g => g_view g = g_view (shost st) /\ only_tables (shost st) g /\
      exists h, eval (CH := ledger_chain) false (run_defs (CH := ledger_chain) false ds) (at_hash a) (combine (map fst (at_params a)) vs) (shost st) = Some (Done h g)
  | _ => True
  end.
Proof.
  intros host ds f a vs ws st sp rs HM HR T Hh Hs Hty Hrep Hrs. pose proof (at_strict _ _ _ _ _ Hrs Hs) as Hrs'. split; [exact Hrs'|]. split; [eapply C68_compiled_at_block_partial; eassumption|].
  destruct rs as [v g| |]; try exact I. destruct (C68_at_block_changes_no_table _ _ _ _ _ _ T Hh Hrs') as (h & He).
  assert (O : only_tables (shost st) g).
  { pose proof (eval_follows (CH := ledger_chain) keeps_rest kr_refl kr_trans kr_op kr_scope false (run_defs (CH := ledger_chain) false ds)
      (fun f us => run_follows (CH := ledger_chain) keeps_rest kr_refl kr_trans kr_op kr_scope false ds f us) (at_hash a) (combine (map fst (at_params a)) vs) (shost st)) as K.
    rewrite He in K. apply K. exact T. }
  split; [destruct O as (d & m & ->); destruct (shost st); reflexivity|]. split; [exact O|]. exists h. exact He.
Qed.
Print Assumptions C68_at_block_is_the_past_partial.

(** ** Leaving [at-block] early *)
(** But when the expression leaves the function ([try!], [unwrap!], [asserts!]), the
    compiled function returns the value and its caller goes on in the past: the reference
    leaves the state [g0] the hash expression left, the compiled function leaves [g0] as
    seen from inside the block, where nothing may be written. *)
Theorem C68_early_exit_stays_in_the_past_refuted : forall host ds f a vs ws (st : store gctx) sp h g0 v g2,
  at_module host ds f a -> at_ready ds a st sp ->
  Forall2 has_type (map snd (at_params a)) vs -> rep_list (smem st) (fun a => a < sp) (map snd (at_params a)) vs ws ->
  let r := combine (map fst (at_params a)) vs in
  eval (CH := ledger_chain) true (run_defs (CH := ledger_chain) true ds) (at_hash a) r (shost st) = Some (Done (CBuff h) g0) ->
  length h = 32%nat -> 1 <= g_memory g0 -> g_hist g0 h <> None -> tidy g0 ->
  eval (CH := past_chain) true (run_defs (CH := past_chain) true ds) (at_body a) r (in_past h g0) = Some (Early v g2) ->
  run_at false true ds a vs (shost st) = Some (Done v g0) /\
  exists ws' st', calls (at_env host ds f a) f ws st (RVals ws' st') /\ rep (smem st') (fun _ => True) (at_ret a) v ws' /\
    shost st' = in_past h g0 /\ g_view (shost st') = Some h /\ is_read_only (shost st') = true /\ length (g_layers (shost st')) = S (length (g_layers g0)) /\
    shost st' <> g0.
Proof.
  intros host ds f a vs ws st sp h g0 v g2 HM HR Hty Hrep r Eh Hl Hm Hh T Eb.
  destruct (g_hist g0 h) as [d|] eqn:Hd; [|congruence].
  pose proof (past_eval_same true ds (at_body a) r (in_past h g0)) as P. rewrite Eb in P. specialize (P ltac:(destruct g0; exact T)). subst g2.
  split.
  - unfold run_at, as_fun. fold r. unfold at_block. rewrite (eval_strict (CH := ledger_chain) _ _ (run_strict (CH := ledger_chain) ds) (at_hash a) r (shost st) _ Eh).
    rewrite Hl. cbn [Nat.eqb negb]. destruct (Z.ltb_spec (g_memory g0) 1); [lia|]. rewrite Hd.
    rewrite (eval_strict (CH := past_chain) _ _ (run_strict (CH := past_chain) ds) (at_body a) r (in_past h g0) _ Eb), leave_entered. reflexivity.
  - assert (Hrs : run_at true false ds a vs (shost st) = Some (Done v (in_past h g0))).
    { unfold run_at, as_fun. fold r. unfold at_block. rewrite Eh, Hl. cbn [Nat.eqb negb]. destruct (Z.ltb_spec (g_memory g0) 1); [lia|]. rewrite Hd, Eb. reflexivity. }
    destruct (C68_compiled_at_block_partial host ds f a vs ws st sp _ HM HR Hty Hrep Hrs) as (ws' & st' & Hc & Hr & _ & Hs & _). exists ws', st'.
    split; [exact Hc|]. split; [exact Hr|]. split; [exact Hs|]. rewrite Hs. split; [destruct g0; reflexivity|]. split; [destruct g0; reflexivity|]. split; [destruct g0; reflexivity|].
    intros Heq. assert (K : length (g_layers (in_past h g0)) = S (length (g_layers g0))) by (destruct g0; reflexivity). rewrite Heq in K. lia.
Qed.
Print Assumptions C68_early_exit_stays_in_the_past_refuted.

(** ** A contract reading its own past *)
(*  (define-data-var tok uint ..)      u5 at the block, u7 now
    (define-private (peek (x (optional uint))) (at-block 0x.. (begin (unwrap! x (err u9)) (ok (var-get tok)))))
    (define-private (both (x (optional uint))) (begin (is-ok (peek x)) (var-get tok)))                          *)
Definition hash68 : list Z := bytes_at m0 0 32.
Definition past68 : db := set_var no_db tok (CUInt 5).
Definition g68 : gctx := mkg self None (fun _ => None) (fun n => if name_eq_dec n tok then Some TUInt else None)
  (fun n => if name_eq_dec n tok then Some TUInt else None) (fun n => if name_eq_dec n tok then Some (TUInt, TUInt) else None)
  (set_var no_db tok (CUInt 7)) [] [] (fun h => if list_eq_dec Z.eq_dec h hash68 then Some past68 else None) None [] (Some alice) [] (Some alice) [] 100000.
Definition st68 : store gctx := mkstore m0 [("stack-pointer", VI32 400); ("runtime-error-code", VI32 0)] g68.
Definition host68 : string -> option (list vt * (list val -> store gctx -> result gctx)) :=
  fun f => match assoc f ledger_host with Some x => Some x | None => assoc f at_block_host end.
Definition ex_peek : at_fun := mkat [("x", TOpt TUInt)] (TResp TUInt TUInt) (EBytes (TBuff 32) (CBuff hash68) 0)
  (ESeq (EUnwrap (EVar (TOpt TUInt) "x") (EErr TUInt (ENum TUInt 9))) (EOk (EPrim (PVarGet tok 0 TUInt) []) TUInt)).
(** the same with [default-to] in place of [unwrap!] *)
Definition ex_peek' : at_fun := mkat [("x", TOpt TUInt)] (TResp TUInt TUInt) (EBytes (TBuff 32) (CBuff hash68) 0)
  (EOk (EArith OAdd TUInt (EDefault (ENum TUInt 0) (EVar (TOpt TUInt) "x")) [EPrim (PVarGet tok 0 TUInt) []]) TUInt).
Lemma hash68_held : held m0 (fun a => a < 400) (TBuff 32, CBuff hash68, 0).
Proof.
  split; [split; [vm_compute; discriminate|]|].
  - change hash68 with (tok ++ repeat 0 29). apply Forall_app. split; [repeat (apply Forall_cons; [lia|]); apply Forall_nil|]. apply Forall_forall. intros x Hx. apply repeat_spec in Hx. lia.
  - exists 0. split; [reflexivity|]. split; [lia|]. split; [vm_compute; reflexivity|]. split; [apply holds_intro; [lia|vm_compute; discriminate|vm_compute; discriminate]|]. intros x Hx. change (Z.of_nat (length hash68)) with 32 in Hx. lia.
Qed.
Lemma tok68_held : held m0 (fun a => a < 400) (TAscii 3, CAscii tok, 0).
Proof. split; [cbn; split; [lia|repeat (apply Forall_cons; [unfold clarity_ascii; lia|]); apply Forall_nil]|]. apply (ascii_in_mem _ _ 3 tok 0); [vm_compute; reflexivity|lia|cbn; lia|cbn; lia]. Qed.
Lemma module68 a : a = ex_peek \/ a = ex_peek' -> at_module host68 [] "peek" a /\ at_ready [] a st68 400.
Proof.
  intros Ha. split.
  - split; [destruct Ha as [->| ->]; reflexivity|intros d []|reflexivity| |split; reflexivity|split; reflexivity].
    intros f Hf. unfold word_imports in Hf. repeat (destruct Hf as [<-|Hf]; [split; reflexivity|]). destruct Hf.
  - split; [reflexivity|eexists; reflexivity|lia| |].
    + change (msize (smem st68)) with 65536. destruct Ha as [->| ->]; (split; [vm_compute; discriminate|lia]).
    + destruct Ha as [->| ->]; (apply Forall_cons; [exact hash68_held|]); (apply Forall_cons; [exact tok68_held|apply Forall_nil]).
Qed.
(** the hypotheses of the theorems above are met, and what they speak about happens *)
Example C68_ex_hyps : tidy (shost st68) /\ stays (at_hash ex_peek') = true /\ stays (at_body ex_peek') = true /\
  Forall2 has_type (map snd (at_params ex_peek')) [CSome (CUInt 1)] /\
  rep_list (smem st68) (fun a => a < 400) (map snd (at_params ex_peek')) [CSome (CUInt 1)] ([VI32 1; VI64 1; VI64 0] ++ []) /\
  run_at true false [] ex_peek' [CSome (CUInt 1)] g68 <> None /\
  eval (CH := ledger_chain) true (run_defs (CH := ledger_chain) true []) (at_hash ex_peek) [("x", CNone)] g68 = Some (Done (CBuff hash68) g68) /\ length hash68 = 32%nat /\ 1 <= g_memory g68 /\ g_hist g68 hash68 <> None /\
  eval (CH := past_chain) true (run_defs (CH := past_chain) true []) (at_body ex_peek) [("x", CNone)] (in_past hash68 g68) = Some (Early (CErr (CUInt 9)) (in_past hash68 g68)).
Proof.
  split; [split; discriminate|]. split; [reflexivity|]. split; [reflexivity|]. split; [constructor; [cbn; lia|constructor]|].
  split; [constructor; [eexists; split; reflexivity|constructor]|]. split; [intros H; vm_compute in H; discriminate H|]. split; [reflexivity|]. split; [reflexivity|]. split; [vm_compute; discriminate|]. split; [intros H; vm_compute in H; discriminate H|]. reflexivity.
Qed.
(** [(peek (some u1))] is [(ok u6)]: the past value, and the variable is [u7] again *)
Example C68_ex_run : match run_at false true [] ex_peek' [CSome (CUInt 1)] g68, invoke (at_env host68 [] "peek" ex_peek') 300 "peek" [VI32 1; VI64 1; VI64 0] st68 with
  | Some (Done v _), RVals ws st' => v = COk (CUInt 6) /\ ws = [VI32 1; VI64 6; VI64 0; VI64 0; VI64 0] /\ d_var (g_db (shost st')) tok = Some (CUInt 7) /\ g_view (shost st') = None /\ g_layers (shost st') = []
  | _, _ => False end.
Proof. vm_compute. auto. Qed.

Definition ex_both : fundef := mkdef "both" [("x", TOpt TUInt)] TUInt
  (ESeq (EIsOk (ECall KPrivate "peek" (TResp TUInt TUInt) [EVar (TOpt TUInt) "x"])) (EPrim (PVarGet tok 0 TUInt) [])).
Definition E68 : env gctx :=
  mkenv (fun n => match assoc n std_funs with Some g => Some g | None => assoc n [("both", define_function [("peek", ([TOpt TUInt], TResp TUInt TUInt))] ex_both); ("peek", define_at [] ex_peek)] end) host68 std_table.
(** what [both] means: [peek] is evaluated, its result dropped; then the variable is read *)
Definition both_meaning (x : value) (g : gctx) : option value :=
  match run_at false true [] ex_peek [x] g with
  | Some (Done _ g') => match eval (CH := ledger_chain) false (fun _ _ => bad) (EPrim (PVarGet tok 0 TUInt) []) [] g' with Some (Done v _) => Some v | _ => None end
  | _ => None
  end.
(** The variable is [u7], and [(both none)] should be [u7] just as [(both (some u1))] is; the
    compiled function returns the value of a past block, and leaves the caller there, unable
    to write. *)
Theorem C68_variable_reads_the_past_refuted :
  both_meaning (CSome (CUInt 1)) g68 = Some (CUInt 7) /\ both_meaning CNone g68 = Some (CUInt 7) /\
  (exists ws st', calls E68 "both" [VI32 1; VI64 1; VI64 0] st68 (RVals ws st') /\ ws = [VI64 7; VI64 0] /\ g_view (shost st') = None) /\
  (exists ws st', calls E68 "both" [VI32 0; VI64 0; VI64 0] st68 (RVals ws st') /\ ws = [VI64 5; VI64 0] /\ g_view (shost st') = Some hash68 /\ is_read_only (shost st') = true).
Proof.
  split; [vm_compute; reflexivity|]. split; [vm_compute; reflexivity|]. split.
  - destruct (invoke E68 300 "both" [VI32 1; VI64 1; VI64 0] st68) as [ws st'| | |] eqn:Hr; try (exfalso; vm_compute in Hr; discriminate Hr).
    exists ws, st'. split; [apply (calls_compute _ 300); [exact Hr|discriminate]|].
    assert (HH : match invoke E68 300 "both" [VI32 1; VI64 1; VI64 0] st68 with RVals ws st' => ws = [VI64 7; VI64 0] /\ g_view (shost st') = None | _ => False end) by (vm_compute; auto).
    rewrite Hr in HH. exact HH.
  - destruct (invoke E68 300 "both" [VI32 0; VI64 0; VI64 0] st68) as [ws st'| | |] eqn:Hr; try (exfalso; vm_compute in Hr; discriminate Hr).
    exists ws, st'. split; [apply (calls_compute _ 300); [exact Hr|discriminate]|].
    assert (HH : match invoke E68 300 "both" [VI32 0; VI64 0; VI64 0] st68 with RVals ws st' => ws = [VI64 5; VI64 0] /\ g_view (shost st') = Some hash68 /\ is_read_only (shost st') = true | _ => False end) by (vm_compute; auto).
    rewrite Hr in HH. exact HH.
Qed.
Print Assumptions C68_variable_reads_the_past_refuted.
