(** * C32, C46-C48: compiled programs behave as Clarity's reference evaluator says *)
From Coq Require Import ZArith String List Bool Lia.
Import ListNotations.
From Verif Require Import Wasm Std StdEnv WasmLogic WasmTac Spec Mem MemFacts Bytes SpecBytes SpecUtf8 Clar Rep RepFacts ArgProofs Emit Equal Ast SpecLang Lang Typing
  LangFacts LangBase LangArith LangCall LangPrim LangMain LangPlain LangTotal.
Open Scope string_scope.
Open Scope list_scope.
Open Scope Z_scope.

(** The store in which a function of the program [ds] may be called, with stack
    pointer [sp]: every literal of the program is in memory below the stack pointer
    ([held], LangBase.v), and memory has room above it for the frames the generator
    accounts for (and the host serves memory of that size). *)
Record ready {HS} {CH : chain HS} (ds : list fundef) (st : store HS) (sp : Z) : Prop := {
  r_sp : gget (sglob st) "stack-pointer" = Some (VI32 sp);
  r_err : exists w, gget (sglob st) "runtime-error-code" = Some w;
  r_pos : 0 <= sp;
  r_room : sp + frames ds <= msize (smem st) < 2 ^ 32;
  r_cap : msize (smem st) <= chain_cap (HS := HS);
  r_lits : Forall (held (smem st) (fun a => a < sp)) (prog_lits ds) }.
(** no function of the program has the name of a library function *)
Definition own_names (ds : list fundef) : Prop := forall d, In d ds -> assoc (fd_name d) std_funs = None.

(** What a call must do when the evaluator yields [rs]: return words representing the
    value (of type [tr]) in the final memory, with the chain state the evaluator
    computed, no global changed and no byte below the stack pointer changed; or
    trap, leaving the error code; or, if the host refuses one of its words, trap there. *)
Definition behaves {HS} (E : env HS) (f : string) (ws : list val) (st : store HS) (sp : Z) (tr : ty) (rs : res HS value) : Prop :=
  match rs with
  | Done v h => exists ws' st', calls E f ws st (RVals ws' st') /\ rep (smem st') (fun _ => True) tr v ws' /\ has_type tr v /\ shost st' = h /\
      (forall n, gget (sglob st') n = gget (sglob st) n) /\ msize (smem st') = msize (smem st) /\ (forall a, a < sp -> rd (smem st') a = rd (smem st) a)
  | Abort c => (exists st', calls E f ws st (RTrap TUnreachable st') /\ gget (sglob st') "runtime-error-code" = Some (VI32 c)) \/
      (exists st', calls E f ws st (RTrap THost st') /\ c = err_host)
  | Early _ _ => False
  end.

Lemma module_std {HS} host ds : has_std (module_env (HS := HS) host ds).
Proof. split; [|reflexivity]. intros n f H. cbn [module_env efun]. rewrite H. reflexivity. Qed.
Lemma defs_own ds : own_names ds -> forall f fn, assoc f (compile_defs ds) = Some fn -> assoc f std_funs = None.
Proof.
  induction ds as [|d ds IH]; intros H f fn; [discriminate|]. cbn [compile_defs assoc]. destruct (String.eqb_spec (fd_name d) f) as [<-|].
  - intros _. apply H. left. reflexivity.
  - apply IH. intros d' Hd. apply H. right. exact Hd.
Qed.

(** ** C46 *)
(** For every well-typed program, every function of it, every argument list of the
    declared types in any representation below the stack pointer, and every chain
    state: wherever the strict evaluator yields a result, the compiled function
    behaves accordingly, and that result is the reference evaluator's. *)
Theorem C46_compiled_programs_run_as_evaluated_partial : forall {HS} {CH : chain HS} host ds f ts tr vs ws (st : store HS) sp rs,
  wt_prog ds = true -> own_names ds -> host_ok (module_env host ds) -> ready ds st sp ->
  assoc f (prog_sig ds) = Some (ts, tr) -> Forall2 has_type ts vs -> rep_list (smem st) (fun a => a < sp) ts vs ws ->
  run_defs true ds f vs (shost st) = Some rs ->
  run_defs false ds f vs (shost st) = Some rs /\ behaves (module_env host ds) f ws st sp tr rs.
Proof.
  intros HS CH host ds f ts tr vs ws st sp rs Hwt Hown HO [R1 R2 R3 R4 RC R5] Hf Hty Hrep Hrs. split; [apply run_strict; exact Hrs|].
  destruct (prog_ok (module_env host ds) (module_std host ds) HO (prog_lits ds) ds Hwt (incl_refl _)) as (Hfr & Hok).
  { intros g fn Hg. cbn [module_env efun]. rewrite (defs_own _ Hown _ _ Hg). exact Hg. }
  destruct (Hok _ _ _ Hf) as (_ & K).
  assert (Hvis : forall a, a < sp -> vis (fun _ => True) sp a) by (intros a Ha; split; auto).
  assert (HL : Forall (held (smem st) (vis (fun _ => True) sp)) (prog_lits ds)). { eapply Forall_impl; [|exact R5]. intros x. apply held_frame; auto. }
  assert (HA : rep_list (smem st) (vis (fun _ => True) sp) ts vs ws) by (eapply rep_list_frame; [| | |exact Hrep]; auto).
  specialize (K vs ws st sp (fun _ => True) rs R1 R2 R3 (fun _ _ => I) HL R4 RC HA Hty Hrs). destruct K as (f0 & r & H1 & H2).
  destruct rs as [v h|v h|c]; [|contradiction|].
  - destruct H2 as (ws' & st' & -> & (Hb1 & Hb2) & Hg & Hh & Hr & Hv). exists ws', st'. split; [exists f0; exact H1|]. split; [exact Hr|]. split; [exact Hv|]. split; [exact Hh|]. split; [exact Hg|]. split; [exact Hb1|exact Hb2].
  - destruct H2 as [(st' & -> & Hg)|(st' & -> & Hg)]; [left|right]; exists st'; (split; [exists f0; exact H1|exact Hg]).
Qed.
Print Assumptions C46_compiled_programs_run_as_evaluated_partial.

(** On plain programs (LangPlain.v: [asserts!] throws an expression that neither
    leaves nor aborts, the same for arithmetic operands after the second, and the
    three arithmetic words with wrong library functions do not occur) there is no
    condition on the input: every call with arguments of the declared types ends, as
    the reference evaluator says. *)
Theorem C46_plain_programs_with_host_partial : forall {HS} {CH : chain HS} {K} (Inv : K -> HS -> Prop) k host ds f ts tr vs ws (st : store HS) sp,
  wt_prog ds = true -> plain_prog ds = true -> own_names ds -> host_ok (module_env host ds) -> ready ds st sp ->
  Forall (served Inv) (prog_uses ds) -> Inv k (shost st) ->
  assoc f (prog_sig ds) = Some (ts, tr) -> Forall2 has_type ts vs -> rep_list (smem st) (fun a => a < sp) ts vs ws ->
  exists rs, run_defs false ds f vs (shost st) = Some rs /\ behaves (module_env host ds) f ws st sp tr rs.
Proof.
  intros HS CH K Inv k host ds f ts tr vs ws st sp Hwt Hpl Hown HO Hr Hsv Hi Hf Hty Hrep.
  assert (HL : Forall (fun l => has_type (fst (fst l)) (snd (fst l))) (prog_lits ds)). { destruct Hr as [_ _ _ _ _ Hr]. eapply Forall_impl; [|exact Hr]. intros [[t v] o] (H & _). exact H. }
  destruct (run_total Inv ds Hwt HL Hsv f ts tr vs k (shost st) Hi Hf Hty) as (rs & E & _). exists rs. split; [exact E|].
  rewrite <- (run_plain Inv ds Hwt Hpl HL Hsv f ts tr vs k (shost st) Hi Hf Hty) in E. eapply C46_compiled_programs_run_as_evaluated_partial; eassumption.
Qed.
Print Assumptions C46_plain_programs_with_host_partial.
(** the same for programs without words served by the host *)
Theorem C46_plain_programs_partial : forall {HS} host ds f ts tr vs ws (st : store HS) sp,
  wt_prog ds = true -> plain_prog ds = true -> prog_uses ds = [] -> own_names ds -> ready ds st sp ->
  assoc f (prog_sig ds) = Some (ts, tr) -> Forall2 has_type ts vs -> rep_list (smem st) (fun a => a < sp) ts vs ws ->
  exists rs, run_defs false ds f vs (shost st) = Some rs /\ behaves (module_env host ds) f ws st sp tr rs.
Proof.
  intros HS host ds f ts tr vs ws st sp Hwt Hpl Hnp Hown Hr. apply (C46_plain_programs_with_host_partial (fun (_ : unit) _ => True) tt); auto; [apply no_host|rewrite Hnp; constructor].
Qed.
Print Assumptions C46_plain_programs_partial.

(** The reference evaluator yields a value of the declared type or an error code for
    every well-typed program and all arguments of the declared types: Clarity's
    types are sound for it, given a host that serves its words with values of their
    types in the states satisfying [Inv], and stays in these states. *)
Theorem C46_evaluator_total : forall {HS} {CH : chain HS} {K} (Inv : K -> HS -> Prop) k ds f ts tr vs (h : HS),
  wt_prog ds = true -> Forall (fun l => has_type (fst (fst l)) (snd (fst l))) (prog_lits ds) -> Forall (served Inv) (prog_uses ds) -> Inv k h ->
  assoc f (prog_sig ds) = Some (ts, tr) -> Forall2 has_type ts vs ->
  (exists v h', run_defs false ds f vs h = Some (Done v h') /\ has_type tr v /\ Inv k h') \/ exists c, run_defs false ds f vs h = Some (Abort c).
Proof.
  intros HS CH KK Inv k ds f ts tr vs h H1 H2 HV Hi H3 H4. destruct (run_total Inv ds H1 H2 HV f ts tr vs k h Hi H3 H4) as (rs & E & K).
  destruct rs as [v h'|v h'|c]; [left; exists v, h'; auto|contradiction|right; exists c; exact E].
Qed.
Print Assumptions C46_evaluator_total.

(** A program with two functions: *)
(*  (define-private (half (x uint)) (begin (asserts! (> x u1) (err u7)) (ok (/ x u2))))
    (define-private (greet (x (optional uint)) (s (string-ascii 4)))
      (let ((n (try! (half (unwrap! x (err u8))))))
        (if (and (> n u0) (is-eq s "abc"))
            (ok {a: n, b: (concat s "!?"), c: (list (some s) none)})
            (err (len s)))))                                                                 *)
Definition ex_half : fundef := mkdef "half" [("x", TUInt)] (TResp TUInt TUInt)
  (ESeq (EAsserts (EWord WGt TBool [EVar TUInt "x"; ENum TUInt 1]) (EErr TUInt (ENum TUInt 7)))
        (EOk (EArith ODiv TUInt (EVar TUInt "x") [ENum TUInt 2]) TUInt)).
Definition ex_tup : list (string * ty) := [("a", TUInt); ("b", TAscii 6); ("c", TList 2 (TOpt (TAscii 4)))].
Definition ex_greet : fundef := mkdef "greet" [("x", TOpt TUInt); ("s", TAscii 4)] (TResp (TTuple ex_tup) TUInt)
  (ELet "n" (ETry (ECall KPrivate "half" (TResp TUInt TUInt) [EUnwrap (EVar (TOpt TUInt) "x") (EErr (TTuple ex_tup) (ENum TUInt 8))]))
    (EIf (EAnd [EWord WGt TBool [EVar TUInt "n"; ENum TUInt 0]; EEq (EVar (TAscii 4) "s") [EBytes (TAscii 3) (CAscii [97; 98; 99]) 0]])
      (EOk (ETuple ex_tup [("a", EVar TUInt "n"); ("b", EConcat (TAscii 6) (EVar (TAscii 4) "s") (EBytes (TAscii 2) (CAscii [33; 63]) 3));
                           ("c", EList 2 (TOpt (TAscii 4)) [ESome (EVar (TAscii 4) "s"); ENone (TOpt (TAscii 4))])]) TUInt)
      (EErr (TTuple ex_tup) (ELen (EVar (TAscii 4) "s"))))).
Definition ex_ds : list fundef := [ex_greet; ex_half].
(** literals at 0 and 3, the string argument at 5, stack pointer 9 *)
Definition ex_mem : mem := write_bytes (mkmem (fun _ => 0) 65536) 0 [97; 98; 99; 33; 63; 97; 98; 99].
Definition ex_st : store unit := mkstore ex_mem [("stack-pointer", VI32 9); ("runtime-error-code", VI32 0)] tt.
Definition ex_env : env unit := module_env (fun _ => None) ex_ds.


Lemma ascii_in_mem m (P : Z -> Prop) n bs o : bytes_at m o (length bs) = bs -> 0 <= o -> o + Z.of_nat (length bs) <= msize m < 2 ^ 32 ->
  (forall x, o <= x < o + Z.of_nat (length bs) -> P x) -> rep m P (TAscii n) (CAscii bs) [VI32 o; VI32 (Z.of_nat (length bs))].
Proof.
  intros H1 H2 H3 H4. change (2 ^ 32) with m32 in H3. cbn [rep]. exists o. split; [reflexivity|]. split; [lia|]. split; [lia|]. split; [|exact H4].
  rewrite <- H1. apply holds_intro; lia.
Qed.
Example C46_ex_hyps : wt_prog ex_ds = true /\ plain_prog ex_ds = true /\ prog_uses ex_ds = [] /\ own_names ex_ds /\ ready ex_ds ex_st 9 /\
  assoc "greet" (prog_sig ex_ds) = Some ([TOpt TUInt; TAscii 4], TResp (TTuple ex_tup) TUInt) /\
  Forall2 has_type [TOpt TUInt; TAscii 4] [CSome (CUInt 5); CAscii [97; 98; 99]] /\
  rep_list (smem ex_st) (fun a => a < 9) [TOpt TUInt; TAscii 4] [CSome (CUInt 5); CAscii [97; 98; 99]] ([VI32 1; VI64 5; VI64 0] ++ [VI32 5; VI32 3] ++ []).
Proof.
  split; [vm_compute; reflexivity|]. split; [reflexivity|]. split; [reflexivity|].
  split. { intros d Hd. cbn [In ex_ds] in Hd. destruct Hd as [<-|[<-|[]]]; vm_compute; reflexivity. }
  split. { split; [reflexivity|eexists; reflexivity|lia|vm_compute; split; [discriminate|reflexivity]|vm_compute; discriminate|].
    replace (prog_lits ex_ds) with [(TAscii 3, CAscii [97; 98; 99], 0); (TAscii 2, CAscii [33; 63], 3)] by reflexivity.
    apply Forall_cons; [|apply Forall_cons; [|apply Forall_nil]].
    - split; [cbn; split; [lia|repeat (apply Forall_cons; [unfold clarity_ascii; lia|]); apply Forall_nil]|]. apply (ascii_in_mem _ _ 3 [97; 98; 99] 0); [vm_compute; reflexivity|lia|cbn; lia|cbn; lia].
    - split; [cbn; split; [lia|repeat (apply Forall_cons; [unfold clarity_ascii; lia|]); apply Forall_nil]|]. apply (ascii_in_mem _ _ 2 [33; 63] 3); [vm_compute; reflexivity|lia|cbn; lia|cbn; lia]. }
  split; [reflexivity|]. split. { constructor; [cbn; lia|]. constructor; [|constructor]. cbn. split; [lia|repeat (apply Forall_cons; [unfold clarity_ascii; lia|]); apply Forall_nil]. }
  constructor; [eexists; split; reflexivity|]. constructor; [|constructor]. apply (ascii_in_mem _ _ 4 [97; 98; 99] 5); [vm_compute; reflexivity|lia|cbn; lia|cbn; lia].
Qed.
(** what the evaluator says, and what the compiled code leaves on the stack *)
Example C46_ex_eval : run_defs false ex_ds "greet" [CSome (CUInt 5); CAscii [97; 98; 99]] tt
  = Some (Done (COk (CTuple [("a", CUInt 2); ("b", CAscii [97; 98; 99; 33; 63]); ("c", CList [CSome (CAscii [97; 98; 99]); CNone])])) tt).
Proof. vm_compute. reflexivity. Qed.
Definition ex_run (vs : list val) : option (list val) := match invoke ex_env 200 "greet" vs ex_st with RVals ws _ => Some ws | _ => None end.
Example C46_ex_ok : ex_run [VI32 1; VI64 5; VI64 0; VI32 5; VI32 3] = Some [VI32 1; VI64 2; VI64 0; VI32 9; VI32 5; VI32 15; VI32 24; VI64 0; VI64 0].
Proof. vm_compute. reflexivity. Qed.
Example C46_ex_try : ex_run [VI32 1; VI64 1; VI64 0; VI32 5; VI32 3] = Some [VI32 0; VI64 0; VI64 0; VI32 0; VI32 0; VI32 0; VI32 0; VI64 7; VI64 0].
Proof. vm_compute. reflexivity. Qed.
Example C46_ex_unwrap : ex_run [VI32 0; VI64 1; VI64 0; VI32 5; VI32 3] = Some [VI32 0; VI64 0; VI64 0; VI32 0; VI32 0; VI32 0; VI32 0; VI64 8; VI64 0].
Proof. vm_compute. reflexivity. Qed.

(** ** C32 *)
(** evaluated in turn, in environment [r], the expressions all yield the boolean [b] *)
Inductive in_turn {HS} {CH : chain HS} (funs : string -> list value -> M HS value) (r : venv) (b : bool) : list expr -> HS -> HS -> Prop :=
| it_nil h : in_turn funs r b [] h h
| it_cons e es h h1 h2 : eval true funs e r h = Some (Done (CBool b) h1) -> in_turn funs r b es h1 h2 -> in_turn funs r b (e :: es) h h2.
Lemma allM_stop {HS} {CH : chain HS} funs r b es1 e es2 (h h1 h2 : HS) : in_turn funs r (negb b) es1 h h1 -> eval true funs e r h1 = Some (Done (CBool b) h2) ->
  allM b (map (fun e => eval true funs e r) (es1 ++ e :: es2)) h = Some (Done (CBool b) h2).
Proof.
  induction 1 as [h|e0 es h h1' h2' H0 H IH]; intros He; cbn [app map allM]; unfold bind at 1.
  - rewrite He, Bool.eqb_reflx. reflexivity.
  - rewrite H0. replace (Bool.eqb (negb b) b) with false by (destruct b; reflexivity). apply IH. exact He.
Qed.
Lemma allM_all {HS} {CH : chain HS} funs r b es (h h1 : HS) : in_turn funs r (negb b) es h h1 -> allM b (map (fun e => eval true funs e r) es) h = Some (Done (CBool (negb b)) h1).
Proof.
  induction 1 as [h|e0 es h h1' h2' H0 H IH]; cbn [app map allM]; [reflexivity|]. unfold bind at 1.
  rewrite H0. replace (Bool.eqb (negb b) b) with false by (destruct b; reflexivity). exact IH.
Qed.
Lemma run_head {HS} {CH : chain HS} d ds vs (h : HS) rs : eval true (run_defs true ds) (fd_body d) (combine (map fst (fd_params d)) vs) h = Some rs ->
  run_defs true (d :: ds) (fd_name d) vs h = Some (match rs with Early v h' => Done v h' | x => x end).
Proof. intros H. cbn [run_defs]. rewrite String.eqb_refl. unfold as_fun. rewrite H. destruct rs; reflexivity. Qed.

(** A function whose body is [(and es1... e es2...)], the operands [es1] yielding true
    and [e] false: the compiled function returns false in the chain state [e] left;
    nothing is asked of [es2], which may abort or return. *)
Theorem C32_and_stops_at_false : forall {HS} {CH : chain HS} host d ds vs ws (st : store HS) sp es1 e es2 h1 h2,
  wt_prog (d :: ds) = true -> own_names (d :: ds) -> host_ok (module_env host (d :: ds)) -> ready (d :: ds) st sp ->
  Forall2 has_type (map snd (fd_params d)) vs -> rep_list (smem st) (fun a => a < sp) (map snd (fd_params d)) vs ws ->
  let r := combine (map fst (fd_params d)) vs in
  fd_body d = EAnd (es1 ++ e :: es2) ->
  in_turn (run_defs true ds) r true es1 (shost st) h1 -> eval true (run_defs true ds) e r h1 = Some (Done (CBool false) h2) ->
  behaves (module_env host (d :: ds)) (fd_name d) ws st sp (fd_ret d) (Done (CBool false) h2).
Proof.
  intros HS CH host d ds vs ws st sp es1 e es2 h1 h2 H1 H2 HO H3 H4 H5 r Hb Hi He.
  apply (C46_compiled_programs_run_as_evaluated_partial host (d :: ds) (fd_name d) (map snd (fd_params d)) (fd_ret d) vs ws st sp _ H1 H2 HO H3); [cbn [prog_sig map assoc]; unfold def_sig at 1; rewrite String.eqb_refl; reflexivity|exact H4|exact H5|].
  rewrite (run_head d ds vs (shost st) (Done (CBool false) h2)); [reflexivity|]. rewrite Hb. cbn [eval]. exact (allM_stop _ _ false _ _ _ _ _ _ Hi He).
Qed.
Print Assumptions C32_and_stops_at_false.
Theorem C32_or_stops_at_true : forall {HS} {CH : chain HS} host d ds vs ws (st : store HS) sp es1 e es2 h1 h2,
  wt_prog (d :: ds) = true -> own_names (d :: ds) -> host_ok (module_env host (d :: ds)) -> ready (d :: ds) st sp ->
  Forall2 has_type (map snd (fd_params d)) vs -> rep_list (smem st) (fun a => a < sp) (map snd (fd_params d)) vs ws ->
  let r := combine (map fst (fd_params d)) vs in
  fd_body d = EOr (es1 ++ e :: es2) ->
  in_turn (run_defs true ds) r false es1 (shost st) h1 -> eval true (run_defs true ds) e r h1 = Some (Done (CBool true) h2) ->
  behaves (module_env host (d :: ds)) (fd_name d) ws st sp (fd_ret d) (Done (CBool true) h2).
Proof.
  intros HS CH host d ds vs ws st sp es1 e es2 h1 h2 H1 H2 HO H3 H4 H5 r Hb Hi He.
  apply (C46_compiled_programs_run_as_evaluated_partial host (d :: ds) (fd_name d) (map snd (fd_params d)) (fd_ret d) vs ws st sp _ H1 H2 HO H3); [cbn [prog_sig map assoc]; unfold def_sig at 1; rewrite String.eqb_refl; reflexivity|exact H4|exact H5|].
  rewrite (run_head d ds vs (shost st) (Done (CBool true) h2)); [reflexivity|]. rewrite Hb. cbn [eval]. exact (allM_stop _ _ true _ _ _ _ _ _ Hi He).
Qed.
Print Assumptions C32_or_stops_at_true.
(** no operand decides: [and] yields true, [or] yields false *)
Theorem C32_and_or_all_operands : forall {HS} {CH : chain HS} host d ds vs ws (st : store HS) sp es (is_and : bool) h1,
  wt_prog (d :: ds) = true -> own_names (d :: ds) -> host_ok (module_env host (d :: ds)) -> ready (d :: ds) st sp ->
  Forall2 has_type (map snd (fd_params d)) vs -> rep_list (smem st) (fun a => a < sp) (map snd (fd_params d)) vs ws ->
  fd_body d = (if is_and then EAnd es else EOr es) ->
  in_turn (run_defs true ds) (combine (map fst (fd_params d)) vs) is_and es (shost st) h1 ->
  behaves (module_env host (d :: ds)) (fd_name d) ws st sp (fd_ret d) (Done (CBool is_and) h1).
Proof.
  intros HS CH host d ds vs ws st sp es is_and h1 H1 H2 HO H3 H4 H5 Hb Hi.
  apply (C46_compiled_programs_run_as_evaluated_partial host (d :: ds) (fd_name d) (map snd (fd_params d)) (fd_ret d) vs ws st sp _ H1 H2 HO H3); [cbn [prog_sig map assoc]; unfold def_sig at 1; rewrite String.eqb_refl; reflexivity|exact H4|exact H5|].
  rewrite (run_head d ds vs (shost st) (Done (CBool is_and) h1)); [reflexivity|]. rewrite Hb. destruct is_and; cbn [eval].
  - exact (allM_all _ _ false _ _ _ Hi).
  - exact (allM_all _ _ true _ _ _ Hi).
Qed.
Print Assumptions C32_and_or_all_operands.
(** [if] evaluates its condition, then exactly the branch it selects: the call does
    what that branch does from the chain state the condition left (an early return
    of the branch returning from the function). *)
Theorem C32_if_takes_one_branch : forall {HS} {CH : chain HS} host d ds vs ws (st : store HS) sp c a b (bv : bool) h1 rs,
  wt_prog (d :: ds) = true -> own_names (d :: ds) -> host_ok (module_env host (d :: ds)) -> ready (d :: ds) st sp ->
  Forall2 has_type (map snd (fd_params d)) vs -> rep_list (smem st) (fun a => a < sp) (map snd (fd_params d)) vs ws ->
  let r := combine (map fst (fd_params d)) vs in
  fd_body d = EIf c a b -> eval true (run_defs true ds) c r (shost st) = Some (Done (CBool bv) h1) ->
  eval true (run_defs true ds) (if bv then a else b) r h1 = Some rs ->
  behaves (module_env host (d :: ds)) (fd_name d) ws st sp (fd_ret d) (match rs with Early v h => Done v h | x => x end).
Proof.
  intros HS CH host d ds vs ws st sp c a b bv h1 rs H1 H2 HO H3 H4 H5 r Hb Hc Hr.
  apply (C46_compiled_programs_run_as_evaluated_partial host (d :: ds) (fd_name d) (map snd (fd_params d)) (fd_ret d) vs ws st sp _ H1 H2 HO H3); [cbn [prog_sig map assoc]; unfold def_sig at 1; rewrite String.eqb_refl; reflexivity|exact H4|exact H5|].
  apply run_head. rewrite Hb. cbn [eval]. unfold bind. fold r. rewrite Hc. destruct bv; exact Hr.
Qed.
Print Assumptions C32_if_takes_one_branch.
(** [(and true (> u1 u2) (is-eq u1 (/ u1 u0)))] is false although its last operand aborts *)
Definition ex_and : fundef := mkdef "f" [] TBool (EAnd [EBool true; EWord WGt TBool [ENum TUInt 1; ENum TUInt 2];
  EEq (ENum TUInt 1) [EArith ODiv TUInt (ENum TUInt 1) [ENum TUInt 0]]]).
Example C32_ex : wt_prog [ex_and] = true /\ ready [ex_and] ex_st 9 /\ in_turn (HS := unit) (run_defs true []) [] true [EBool true] tt tt /\
  eval (HS := unit) true (run_defs true []) (EWord WGt TBool [ENum TUInt 1; ENum TUInt 2]) [] tt = Some (Done (CBool false) tt) /\
  eval (HS := unit) true (run_defs true []) (EEq (ENum TUInt 1) [EArith ODiv TUInt (ENum TUInt 1) [ENum TUInt 0]]) [] tt = Some (Abort err_div_zero).
Proof.
  split; [reflexivity|]. split; [split; [reflexivity|eexists; reflexivity|lia|vm_compute; split; [discriminate|reflexivity]|vm_compute; discriminate|constructor]|].
  split; [eapply it_cons; [reflexivity|apply it_nil]|]. split; reflexivity.
Qed.
Example C32_ex_run : invoke (module_env (fun _ => None) [ex_and]) 60 "f" [] ex_st = RVals [VI32 0] ex_st.
Proof. vm_compute. reflexivity. Qed.

(** ** C33 *)
(** [(is-eq a b ...)] as a whole: when the operands evaluate to [v] and [vs], a
    function whose body is the [is-eq] returns true exactly when every one of [vs]
    is the same value as [v]. *)
Inductive evals {HS} {CH : chain HS} (funs : string -> list value -> M HS value) (r : venv) : list expr -> HS -> list value -> HS -> Prop :=
| ev_nil h : evals funs r [] h [] h
| ev_cons e es h v h1 vs h2 : eval true funs e r h = Some (Done v h1) -> evals funs r es h1 vs h2 -> evals funs r (e :: es) h (v :: vs) h2.
Lemma mapM_evals {HS} {CH : chain HS} funs r es (h h' : HS) vs : evals funs r es h vs h' -> mapM (map (fun e => eval true funs e r) es) h = Some (Done vs h').
Proof. induction 1; cbn [map mapM]; [reflexivity|]. unfold bind. rewrite H, IHevals. reflexivity. Qed.
Theorem C33_is_eq : forall {HS} {CH : chain HS} host d ds args ws (st : store HS) sp a es v vs h1,
  wt_prog (d :: ds) = true -> own_names (d :: ds) -> host_ok (module_env host (d :: ds)) -> ready (d :: ds) st sp ->
  Forall2 has_type (map snd (fd_params d)) args -> rep_list (smem st) (fun a => a < sp) (map snd (fd_params d)) args ws ->
  fd_body d = EEq a es -> evals (run_defs true ds) (combine (map fst (fd_params d)) args) (a :: es) (shost st) (v :: vs) h1 ->
  exists b, behaves (module_env host (d :: ds)) (fd_name d) ws st sp (fd_ret d) (Done (CBool b) h1) /\ (b = true <-> Forall (fun x => v = x) vs).
Proof.
  intros HS CH host d ds args ws st sp a es v vs h1 H1 H2 HO H3 H4 H5 Hb He. exists (forallb (veqb v) vs). split.
  - apply (C46_compiled_programs_run_as_evaluated_partial host (d :: ds) (fd_name d) (map snd (fd_params d)) (fd_ret d) args ws st sp _ H1 H2 HO H3); [cbn [prog_sig map assoc]; unfold def_sig at 1; rewrite String.eqb_refl; reflexivity|exact H4|exact H5|].
    rewrite (run_head d ds args (shost st) (Done (CBool (forallb (veqb v) vs)) h1)); [reflexivity|]. rewrite Hb. cbn [eval]. inversion He; subst. unfold bind at 1.
    match goal with H : eval true _ a _ _ = _ |- _ => rewrite H end. unfold bind. erewrite mapM_evals by eassumption. reflexivity.
  - rewrite forallb_forall, Forall_forall. split; intros H x Hx; [apply veqb_spec, H; exact Hx|apply veqb_spec, H; exact Hx].
Qed.
Print Assumptions C33_is_eq.
(** [(is-eq (some s) (some "abc"))] with the string "abc" at two places *)
Definition ex_eq : fundef := mkdef "f" [("s", TAscii 4)] TBool (EEq (ESome (EVar (TAscii 4) "s")) [ESome (EBytes (TAscii 3) (CAscii [97; 98; 99]) 0)]).
Example C33_is_eq_ex : wt_prog [ex_eq] = true /\ evals (HS := unit) (run_defs true []) [("s", CAscii [97; 98; 99])]
    [ESome (EVar (TAscii 4) "s"); ESome (EBytes (TAscii 3) (CAscii [97; 98; 99]) 0)] tt [CSome (CAscii [97; 98; 99]); CSome (CAscii [97; 98; 99])] tt /\
  invoke (module_env (fun _ => None) [ex_eq]) 60 "f" [VI32 5; VI32 3] ex_st = RVals [VI32 1] ex_st /\
  invoke (module_env (fun _ => None) [ex_eq]) 60 "f" [VI32 5; VI32 4] ex_st = RVals [VI32 0] ex_st.
Proof.
  split; [reflexivity|]. split; [eapply ev_cons; [reflexivity|eapply ev_cons; [reflexivity|apply ev_nil]]|]. split; vm_compute; reflexivity.
Qed.

(** ** C47-C49: where compiled programs differ from the evaluator *)
Definition calls_of (d : fundef) := module_env (HS := unit) (fun _ => None) [d].
(** C47: [asserts!] should evaluate the expression it throws only when its predicate
    is false.  [(ok (asserts! true (err (/ u1 u0))))] is [(ok true)]; compiled, it aborts. *)
Definition ex_asserts : fundef := mkdef "f" [] (TResp TBool TUInt)
  (EOk (EAsserts (EBool true) (EErr TBool (EArith ODiv TUInt (ENum TUInt 1) [ENum TUInt 0]))) TUInt).
Theorem C47_asserts_throws_lazily_refuted :
  wt_prog [ex_asserts] = true /\ ready [ex_asserts] ex_st 9 /\
  run_defs false [ex_asserts] "f" [] tt = Some (Done (COk (CBool true)) tt) /\
  aborts (calls_of ex_asserts) "f" [] ex_st err_div_zero.
Proof.
  split; [reflexivity|]. split; [split; [reflexivity|eexists; reflexivity|lia|vm_compute; split; [discriminate|reflexivity]|vm_compute; discriminate|constructor]|]. split; [reflexivity|].
  apply (calls_compute _ 60); [vm_compute; reflexivity|discriminate].
Qed.
Print Assumptions C47_asserts_throws_lazily_refuted.
(** also, when the predicate holds but the thrown expression itself returns early,
    the function returns early: [(begin (asserts! true (err (unwrap! none (err u5)))) (ok true))] *)
Definition ex_asserts2 : fundef := mkdef "f" [] (TResp TBool TUInt)
  (ESeq (EAsserts (EBool true) (EErr TBool (EUnwrap (ENone (TOpt TUInt)) (EErr TBool (ENum TUInt 5))))) (EOk (EBool true) TUInt)).
Theorem C47_asserts_returns_early_refuted :
  wt_prog [ex_asserts2] = true /\ run_defs false [ex_asserts2] "f" [] tt = Some (Done (COk (CBool true)) tt) /\
  returns (calls_of ex_asserts2) "f" [] ex_st [VI32 0; VI32 0; VI64 5; VI64 0].
Proof.
  split; [reflexivity|]. split; [reflexivity|]. apply (calls_compute _ 60); [vm_compute; reflexivity|discriminate].
Qed.
Print Assumptions C47_asserts_returns_early_refuted.

(** C48: arithmetic words should evaluate all their operands before computing.
    [(+ max u1 (unwrap! none u5))] returns [u5] early; compiled, it aborts with an
    overflow before the last operand is evaluated. *)
Definition ex_order : fundef := mkdef "f" [] TUInt
  (EArith OAdd TUInt (ENum TUInt (2 ^ 128 - 1)) [ENum TUInt 1; EUnwrap (ENone (TOpt TUInt)) (ENum TUInt 5)]).
Theorem C48_operands_first_refuted :
  wt_prog [ex_order] = true /\ ready [ex_order] ex_st 9 /\
  run_defs false [ex_order] "f" [] tt = Some (Done (CUInt 5) tt) /\ aborts (calls_of ex_order) "f" [] ex_st err_overflow.
Proof.
  split; [vm_compute; reflexivity|]. split; [split; [reflexivity|eexists; reflexivity|lia|vm_compute; split; [discriminate|reflexivity]|vm_compute; discriminate|constructor]|]. split; [vm_compute; reflexivity|].
  apply (calls_compute _ 60); [vm_compute; reflexivity|discriminate].
Qed.
Print Assumptions C48_operands_first_refuted.

(** C49: [(- x)] should abort only when [-x] is not of the type.  [(- u0)] is [u0];
    compiled, it aborts with an underflow. *)
Definition ex_neg : fundef := mkdef "f" [("x", TUInt)] TUInt (EArith OSub TUInt (EVar TUInt "x") []).
Theorem C49_negate_uint_zero_refuted :
  wt_prog [ex_neg] = true /\ run_defs false [ex_neg] "f" [CUInt 0] tt = Some (Done (CUInt 0) tt) /\
  aborts (calls_of ex_neg) "f" [VI64 0; VI64 0] ex_st err_underflow.
Proof. split; [reflexivity|]. split; [vm_compute; reflexivity|]. apply (calls_compute _ 60); [vm_compute; reflexivity|discriminate]. Qed.
Print Assumptions C49_negate_uint_zero_refuted.
(** on [int], and on the other unsigned integers, negation is as it should be *)
Theorem C49_negate_partial : forall {HS} host t z ws (st : store HS) sp, is_num t = true -> in_range t z -> (t = TUInt -> z <> 0) ->
  let d := mkdef "f" [("x", t)] t (EArith OSub t (EVar t "x") []) in
  ready [d] st sp -> rep_list (smem st) (fun a => a < sp) [t] [num t z] ws ->
  behaves (module_env host [d]) "f" ws st sp t (if fitsb t (- z) then Done (num t (- z)) (shost st) else Abort err_underflow).
Proof.
  intros HS host t z ws st sp Ht Hz H0 d Hr Hrep.
  apply (C46_compiled_programs_run_as_evaluated_partial host [d] "f" [t] t [num t z] ws st sp).
  - cbn. destruct t; try discriminate; reflexivity.
  - intros d' [<-|[]]. vm_compute. reflexivity.
  - apply no_host.
  - exact Hr.
  - reflexivity.
  - constructor; [|constructor]. apply type_num; assumption.
  - exact Hrep.
  - cbn [run_defs fd_name d fd_body fd_params map fst combine]. rewrite String.eqb_refl. unfold as_fun. cbn [eval assoc]. rewrite String.eqb_refl. cbn [of_opt]. unfold bind, ret. cbn [map mapM arithM].
    unfold unless, arith_ok, ret. assert (Hn : num_of t (num t z) = Some z) by (destruct t; try discriminate; reflexivity). rewrite Hn.
    assert (Hw : wrong1 OSub t z = false). { destruct t; try reflexivity. cbn. apply Z.eqb_neq. apply H0. reflexivity. }
    rewrite Hw. cbn [negb andb arithM]. rewrite Hn. cbn [arith1]. unfold exact. destruct (fitsb t (- z)); reflexivity.
Qed.
Print Assumptions C49_negate_partial.

(** C50: the code compiled for a function should return words of the types of its
    result type.  It does for every program accepted by [wt_prog] (C46: what [rep]
    relates to a value has these types); two programs that Clarity's type checker
    accepts and [wt_prog] rejects: *)
(** [(define-private (f (x (optional int))) (begin (try! x) (some true)))]: the [none]
    that [try!] returns early has the words of [x]'s type (conditionals.rs 222-225) *)
Definition ex_try_opt : fundef := mkdef "f" [("x", TOpt TInt)] (TOpt TBool) (ESeq (ETry (EVar (TOpt TInt) "x")) (ESome (EBool true))).
Theorem C50_try_none_words_refuted :
  run_defs false [ex_try_opt] "f" [CNone] tt = Some (Done CNone tt) /\
  returns (calls_of ex_try_opt) "f" [VI32 0; VI64 0; VI64 0] ex_st [VI64 0; VI64 0] /\
  ~ Forall2 wtyped (clar2wasm_ty (TOpt TBool)) [VI64 0; VI64 0].
Proof.
  split; [reflexivity|]. split; [apply (calls_compute _ 60); [vm_compute; reflexivity|discriminate]|]. intros H. inversion H as [|? ? ? ? H1 H2]; subst. exact H1.
Qed.
Print Assumptions C50_try_none_words_refuted.
(** [(define-private (f (c bool)) (let ((x none)) (if c x (some 1))))]: the words of the
    variable are those of the type of [none] alone (visit_atom, wasm_generator.rs 1638-1663) *)
Definition ex_var_none : fundef := mkdef "f" [("c", TBool)] (TOpt TInt)
  (ELet "x" (ENone (TOpt TNo)) (EIf (EVar TBool "c") (EVar (TOpt TInt) "x") (ESome (ENum TInt 1)))).
Theorem C50_variable_words_refuted :
  run_defs false [ex_var_none] "f" [CBool true] tt = Some (Done CNone tt) /\
  returns (calls_of ex_var_none) "f" [VI32 1] ex_st [VI32 0; VI32 0] /\
  ~ Forall2 wtyped (clar2wasm_ty (TOpt TInt)) [VI32 0; VI32 0].
Proof.
  split; [reflexivity|]. split; [apply (calls_compute _ 60); [vm_compute; reflexivity|discriminate]|]. intros H. inversion H as [|? ? ? ? H1 H2]; subst. inversion H2 as [|? ? ? ? H3 H4]; subst. exact H3.
Qed.
Print Assumptions C50_variable_words_refuted.
(** for programs [wt_prog] accepts: a call never gets stuck and returns words of the
    result type, or traps with an error code, or is refused by the host *)
Theorem C50_result_words_partial : forall {HS} {CH : chain HS} host ds f ts tr vs ws (st : store HS) sp rs,
  wt_prog ds = true -> own_names ds -> host_ok (module_env host ds) -> ready ds st sp ->
  assoc f (prog_sig ds) = Some (ts, tr) -> Forall2 has_type ts vs -> rep_list (smem st) (fun a => a < sp) ts vs ws ->
  run_defs true ds f vs (shost st) = Some rs ->
  (exists ws' st', calls (module_env host ds) f ws st (RVals ws' st') /\ Forall2 wtyped (clar2wasm_ty tr) ws') \/
  (exists st' c, rs = Abort c /\ calls (module_env host ds) f ws st (RTrap TUnreachable st') /\ gget (sglob st') "runtime-error-code" = Some (VI32 c)) \/
  (exists st', rs = Abort err_host /\ calls (module_env host ds) f ws st (RTrap THost st')).
Proof.
  intros HS CH host ds f ts tr vs ws st sp rs H1 H2 HO H3 H4 H5 H6 H7.
  destruct (C46_compiled_programs_run_as_evaluated_partial host ds f ts tr vs ws st sp rs H1 H2 HO H3 H4 H5 H6 H7) as (_ & K). destruct rs as [v h|v h|c]; [|contradiction|].
  - destruct K as (ws' & st' & K1 & K2 & _). left. exists ws', st'. split; [exact K1|]. eapply rep_typed. exact K2.
  - destruct K as [(st' & K1 & K2)|(st' & K1 & ->)]; right; [left; exists st', c; auto|right; exists st'; auto].
Qed.
Print Assumptions C50_result_words_partial.
