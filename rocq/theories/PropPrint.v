(** * C72: print registers the value and gives it back *)
From Coq Require Import ZArith String List Bool Lia.
Import ListNotations.
From Verif Require Import Wasm Std StdEnv WasmLogic WasmTac Spec Mem MemFacts Bytes SpecBytes SpecUtf8 Clar Codec Emit Rep RepFacts WriteProofs ArgProofs
  Ledger LedgerProofs PropLedger PropStore Ast SpecLang Lang Typing LangFacts LangBase LangCtl LangMem LangSeq LangCall LangPrim LangMain LangPlain PropLang SpecChain ConstProofs PropCodec SpecPrint Print.
Open Scope string_scope.
Open Scope list_scope.
Open Scope Z_scope.

(** ** The module: the program [ds] and a function that prints *)
Record print_fun := mksay { pf_params : list (string * ty); pf_body : stmt }.
Definition pf_ret (a : print_fun) : ty := stmt_ty (pf_body a).
Definition define_print (ds : list fundef) (a : print_fun) : func := define_body (pf_params a) (pf_ret a) (comp_stmt (prog_sig ds) (pf_ret a) (pf_body a)).
Definition print_env {HS} (host : string -> option (list vt * (list val -> store HS -> result HS))) (ds : list fundef) (f : string) (a : print_fun) : env HS :=
  mkenv (fun n => match assoc n std_funs with Some g => Some g | None => assoc n ((f, define_print ds a) :: compile_defs ds) end) host std_table.
Fixpoint wt_stmt (S : list (string * fsig)) (rt : ty) (G : tenv) (s : stmt) : bool :=
  match s with
  | SExpr e => wt S rt G e
  | SPrint _ _ s => ty_okb (stmt_ty s) && wt_stmt S rt G s
  | SSeq a b => wt_stmt S rt G a && wt_stmt S rt G b
  | SLet x a b => wt_stmt S rt G a && wt_stmt S rt ((x, stmt_ty a) :: G) b
  | SIf c a b => wt_stmt S rt G c && wt_stmt S rt G a && wt_stmt S rt G b &&
      (if ty_eq_dec (stmt_ty c) TBool then true else false) && (if ty_eq_dec (stmt_ty b) (stmt_ty a) then true else false)
  end.
(** the texts are those of the types that are serialized (words/print.rs 42-49 checks only
    that they can be parsed) *)
Fixpoint texts_ok (parse : list Z -> option ty) (s : stmt) : Prop :=
  match s with
  | SExpr _ => True
  | SPrint text _ s => parse text = Some (serialized (stmt_ty s)) /\ texts_ok parse s
  | SSeq a b | SLet _ a b => texts_ok parse a /\ texts_ok parse b
  | SIf c a b => texts_ok parse c /\ texts_ok parse a /\ texts_ok parse b
  end.
Fixpoint stmt_lits (s : stmt) : list (ty * value * Z) :=
  match s with
  | SExpr e => lits e
  | SPrint text to s => (TAscii (Z.of_nat (length text)), CAscii text, to) :: stmt_lits s
  | SSeq a b | SLet _ a b => stmt_lits a ++ stmt_lits b
  | SIf c a b => stmt_lits c ++ stmt_lits a ++ stmt_lits b
  end.
(** the call stack space the generator asks for ([room] of a print is [call_stack_size]), and
    what the code uses ([print_room]) *)
Fixpoint stmt_frame (room : ty -> Z) (S : list (string * fsig)) (s : stmt) : Z :=
  match s with
  | SExpr e => Lang.frame S e
  | SPrint _ _ s => stmt_frame room S s + room (stmt_ty s)
  | SSeq a b | SLet _ a b => stmt_frame room S a + stmt_frame room S b
  | SIf c a b => stmt_frame room S c + stmt_frame room S a + stmt_frame room S b
  end.
Definition requested (ds : list fundef) (a : print_fun) : Z := stmt_frame (fun t => call_stack_size t false true) (prog_sig ds) (pf_body a) + frames ds.
Definition used (ds : list fundef) (a : print_fun) : Z := stmt_frame print_room (prog_sig ds) (pf_body a) + frames ds.

Record print_module {HS} (parse : list Z -> option ty) (log : HS -> value -> HS) (host : string -> option (list vt * (list val -> store HS -> result HS))) (ds : list fundef) (f : string) (a : print_fun) : Prop := {
  pm_prog : wt_prog ds = true;
  pm_new : has_key f (map (fun d => (fd_name d, fd_ret d)) ds) = false;
  pm_typed : wt_stmt (prog_sig ds) (pf_ret a) (pf_params a) (pf_body a) = true;
  pm_own : own_names ds;
  pm_name : assoc f std_funs = None;
  pm_texts : texts_ok parse (pf_body a);
  pm_free : efun (print_env host ds f a) "stdlib.print" = None;
  pm_print : host "stdlib.print" = Some (print_ps, i_print parse log) }.
Record print_ready {HS} {CH : chain HS} (room : Z) (ds : list fundef) (a : print_fun) (st : store HS) (sp : Z) : Prop := {
  pr_sp : gget (sglob st) "stack-pointer" = Some (VI32 sp);
  pr_err : exists w, gget (sglob st) "runtime-error-code" = Some w;
  pr_pos : 0 <= sp;
  pr_room : sp + room <= msize (smem st) < 2 ^ 32;
  pr_cap : msize (smem st) <= chain_cap (HS := HS);
  pr_lits : Forall (held (smem st) (fun a => a < sp)) (stmt_lits (pf_body a) ++ prog_lits ds) }.

(** ** What it means *)
Definition run_print {HS} {CH : chain HS} (log : HS -> value -> HS) (strict : bool) (ds : list fundef) (a : print_fun) (vs : list value) (g : HS) : option (res HS value) :=
  as_fun (eval_stmt log strict (run_defs strict ds) (pf_body a) (combine (map fst (pf_params a)) vs)) g.

(** [(print s)]: [s] is evaluated; one event is registered, after everything [s] did; the
    result is the value. *)
Theorem C72_print_registers_and_returns : forall {HS} {CH : chain HS} (log : HS -> value -> HS) strict funs text to s r g v g',
  eval_stmt log strict funs (SPrint text to s) r g = Some (Done v g') <->
  exists g1, eval_stmt log strict funs s r g = Some (Done v g1) /\ g' = log g1 (seen v).
Proof.
  intros HS CH log strict funs text to s r g v g'. cbn [eval_stmt]. unfold bind, do_print. split.
  - destruct (eval_stmt log strict funs s r g) as [[u g1|u g1|c]|]; try discriminate. intros H. injection H as <- <-. exists g1. auto.
  - intros (g1 & -> & ->). reflexivity.
Qed.
Print Assumptions C72_print_registers_and_returns.
(** The event is the value itself, when no contract is called through a trait in it. *)
Theorem C72_event_is_the_value : forall t v, has_type t v -> no_trait t -> seen v = v.
Proof.
  intros t v. revert t. induction v as [v H0|vs IH|v IH|v IH|v IH|fs IH] using ConstProofs.value_ind2; intros t Ht Hn.
  - destruct v; try contradiction H0; try reflexivity. destruct t; contradiction Ht || contradiction Hn.
  - destruct t; try contradiction Ht. cbn [has_type no_trait] in Ht, Hn. destruct Ht as (_ & Hf). cbn [seen]. f_equal. clear -IH Hf Hn.
    induction IH as [|v vs Hv H IH]; [reflexivity|]. inversion Hf as [|? ? F1 F2]; subst. cbn [map]. rewrite (Hv _ F1 Hn), (IH F2). reflexivity.
  - destruct t; try contradiction Ht. cbn [seen]. f_equal. exact (IH _ Ht Hn).
  - destruct t; try contradiction Ht. cbn [seen]. f_equal. destruct Hn as (Hn & _). exact (IH _ Ht Hn).
  - destruct t; try contradiction Ht. cbn [seen]. f_equal. destruct Hn as (_ & Hn). exact (IH _ Ht Hn).
  - destruct t as [| | | | | | | | | | | |ts]; try contradiction Ht. change (fields_typed ts fs) in Ht. change (fields_no_trait ts) in Hn. cbn [seen]. f_equal.
    revert ts Ht Hn. induction IH as [|[k v] fs Hv H IH]; intros [|[k' t] ts]; cbn [fields_typed fields_no_trait map fst snd]; try tauto.
    intros (-> & T1 & T2) (N1 & N2). cbn [snd] in Hv. rewrite (Hv _ T1 N1), (IH _ T2 N2). reflexivity.
Qed.
Print Assumptions C72_event_is_the_value.

(** a strict result is the reference result *)
Lemma eval_stmt_strict {HS} {CH : chain HS} (log : HS -> value -> HS) ds s : forall r g rs, eval_stmt log true (run_defs true ds) s r g = Some rs -> eval_stmt log false (run_defs false ds) s r g = Some rs.
Proof.
  induction s as [e|text to s IH|a IHa b IHb|x a IHa b IHb|c IHc a IHa b IHb]; intros r g rs; cbn [eval_stmt].
  - intros H. exact (eval_strict _ _ (run_strict ds) e r g _ H).
  - unfold bind. destruct (eval_stmt log true _ s r g) as [x|] eqn:Ex; [|discriminate]. rewrite (IH _ _ _ Ex). auto.
  - unfold bind. destruct (eval_stmt log true _ a r g) as [x|] eqn:Ex; [|discriminate]. rewrite (IHa _ _ _ Ex). destruct x; auto.
  - unfold bind. destruct (eval_stmt log true _ a r g) as [y|] eqn:Ex; [|discriminate]. rewrite (IHa _ _ _ Ex). destruct y; auto.
  - unfold bind. destruct (eval_stmt log true _ c r g) as [y|] eqn:Ex; [|discriminate]. rewrite (IHc _ _ _ Ex). destruct y as [v h|v h|k]; auto. destruct v as [| |b0| | | | | | | | | | |]; auto. destruct b0; auto.
Qed.
Theorem C72_strict_is_reference : forall {HS} {CH : chain HS} (log : HS -> value -> HS) ds a vs g rs, run_print log true ds a vs g = Some rs -> run_print log false ds a vs g = Some rs.
Proof.
  intros HS CH log ds a vs g rs H. unfold run_print, as_fun in *. destruct (eval_stmt log true _ _ _ g) as [x|] eqn:Ex; [|discriminate].
  rewrite (eval_stmt_strict _ _ _ _ _ _ Ex). exact H.
Qed.
Print Assumptions C72_strict_is_reference.

(** ** What the compiled function does *)
Section Compiled.
Context {HS : Type} {CH : chain HS} (E : env HS) (HE : has_std E) (parse : list Z -> option ty) (log : HS -> value -> HS).
Context (Hf : efun E "stdlib.print" = None) (Hh : ehost E "stdlib.print" = Some (print_ps, i_print parse log)) (Hcap : chain_cap (HS := HS) <= 2 ^ 31 - 1).
Context (sig : list (string * fsig)) (rt : ty) (L : list (ty * value * Z)) (X : Z) (HX0 : 0 <= X) (funs : string -> list value -> M HS value) (Hhost : host_ok E).
Context (Hfuns : forall f ts tr, assoc f sig = Some (ts, tr) -> fun_ok E L X funs f ts tr).
Lemma stmt_ok s : forall G, wt_stmt sig rt G s = true -> texts_ok parse s -> incl (stmt_lits s) L ->
  impl E rt L X G (stmt_ty s) (stmt_frame print_room sig s) (comp_stmt sig rt s) (eval_stmt log true funs s).
Proof.
  induction s as [e|text to s IH|a IHa b IHb|x a IHa b IHb|c IHc a IHa b IHb]; intros G Hw Ht HL; cbn [wt_stmt texts_ok stmt_lits stmt_ty stmt_frame comp_stmt eval_stmt] in *;
    repeat match goal with H : _ && _ = true |- _ => apply andb_prop in H as (? & ?) end.
  - exact (expr_ok E HE sig rt L X HX0 funs Hhost Hfuns e G Hw HL).
  - destruct Ht as (Ht1 & Ht2). apply (print_ok E parse log Hf Hh Hcap rt L X HX0); [apply ty_okb_ok; assumption|exact Ht1|apply HL; left; reflexivity|].
    apply IH; auto. intros y Hy. apply HL. right. exact Hy.
  - destruct Ht as (Ht1 & Ht2). eapply seq_ok; [apply IHa|apply IHb]; auto; [eapply incl_app_l; eauto|eapply incl_app_r'; eauto].
  - destruct Ht as (Ht1 & Ht2). eapply let_ok; [apply IHa|apply IHb]; auto; [eapply incl_app_l; eauto|eapply incl_app_r'; eauto].
  - destruct Ht as (Ht1 & Ht2 & Ht3). destruct (ty_eq_dec (stmt_ty c) TBool) as [Hc|]; [|discriminate]. destruct (ty_eq_dec (stmt_ty b) (stmt_ty a)) as [Hb|]; [|discriminate].
    pose proof (incl_app_l _ _ _ HL) as L1. pose proof (incl_app_r' _ _ _ HL) as L2. pose proof (incl_app_l _ _ _ L2) as L3. pose proof (incl_app_r' _ _ _ L2) as L4.
    apply if_ok; [rewrite <- Hc; apply IHc|apply IHa|rewrite <- Hb; apply IHb]; auto.
Qed.
End Compiled.

Theorem C72_compiled_print : forall {HS} {CH : chain HS} parse (log : HS -> value -> HS) host ds f a vs ws (st : store HS) sp rs,
  print_module parse log host ds f a -> host_ok (print_env host ds f a) -> chain_cap (HS := HS) <= 2 ^ 31 - 1 -> print_ready (used ds a) ds a st sp ->
  Forall2 has_type (map snd (pf_params a)) vs -> rep_list (smem st) (fun a => a < sp) (map snd (pf_params a)) vs ws ->
  run_print log true ds a vs (shost st) = Some rs -> behaves (print_env host ds f a) f ws st sp (pf_ret a) rs.
Proof.
  intros HS CH parse log host ds f a vs ws st sp rs [M1 M2 M3 M4 M5 M6 M7 M8] Hhost Hcap [R1 R2 R3 R4 R5 R6] Hty Hrep Hrs.
  set (E := print_env host ds f a) in *. set (LL := stmt_lits (pf_body a) ++ prog_lits ds) in *.
  assert (HE : has_std E) by (split; [|reflexivity]; intros n g Hg; unfold E, print_env; cbn [efun]; rewrite Hg; reflexivity).
  pose proof (incl_app_l _ _ _ (incl_refl LL)) as HL1. pose proof (incl_app_r' _ _ _ (incl_refl LL)) as HL2.
  assert (HF : forall n fn, assoc n (compile_defs ds) = Some fn -> efun E n = Some fn).
  { intros n fn Hn. unfold E, print_env. cbn [efun]. rewrite (defs_own _ M4 _ _ Hn). cbn [assoc]. destruct (String.eqb_spec f n) as [->|]; [|exact Hn]. exfalso.
    assert (K : has_key n (map (fun d => (fd_name d, fd_ret d)) ds) = true).
    { revert Hn. clear. unfold has_key. induction ds as [|d ds IH]; cbn [compile_defs map assoc]; [discriminate|]. destruct (String.eqb (fd_name d) n); auto. }
    congruence. }
  destruct (prog_ok E HE Hhost LL ds M1 HL2 HF) as (F0 & P1).
  pose proof (stmt_ok E HE parse log M7 M8 Hcap (prog_sig ds) (pf_ret a) LL (frames ds) F0 _ Hhost P1 (pf_body a) (pf_params a) M3 M6 HL1) as HI.
  assert (Hfn : efun E f = Some (define_print ds a)) by (unfold E, print_env; cbn [efun assoc]; rewrite M5, String.eqb_refl; reflexivity).
  destruct (body_ok E LL (frames ds) f _ _ _ _ _ F0 HI Hfn (fun _ vs h => run_print log true ds a vs h) (fun _ _ => eq_refl)) as (_ & K).
  assert (Hvis : forall a, a < sp -> vis (fun _ => True) sp a) by (intros x Hx; split; auto).
  assert (HL : Forall (held (smem st) (vis (fun _ => True) sp)) LL). { eapply Forall_impl; [|exact R6]. intros x. apply held_frame; auto. }
  assert (HA : rep_list (smem st) (vis (fun _ => True) sp) (map snd (pf_params a)) vs ws) by (eapply rep_list_frame; [| | |exact Hrep]; auto).
  specialize (K vs ws st sp (fun _ => True) rs R1 R2 R3 (fun _ _ => I) HL). unfold used in R4. change m32 with (2 ^ 32) in K. specialize (K R4 R5 HA Hty Hrs). destruct K as (f0 & r & H1 & H2).
  destruct rs as [v h|v h|c]; [|contradiction|].
  - destruct H2 as (ws' & st' & -> & (Hb1 & Hb2) & Hg & Hh & Hr & Hv). exists ws', st'. split; [exists f0; exact H1|]. split; [exact Hr|]. split; [exact Hv|]. split; [exact Hh|]. split; [exact Hg|]. split; [exact Hb1|exact Hb2].
  - destruct H2 as [(st' & -> & Hg)|(st' & -> & Hg)]; [left|right]; exists st'; (split; [exists f0; exact H1|exact Hg]).
Qed.
Print Assumptions C72_compiled_print.

(** ** Concrete programs; the chain state is the list of events *)
#[export] Instance events_only : chain (list value) := mkchain (list value) (fun _ _ _ => None) (2 ^ 31 - 1) (fun _ _ => None) (fun _ _ _ => None).
Lemma events_host (E : env (list value)) : host_ok (CH := events_only) E.
Proof. split; [intros p _ vs st rs H; discriminate|]. split; [intros s st h H; discriminate|intros s b st h H; discriminate]. Qed.
Definition log72 (g : list value) (v : value) : list value := g ++ [v].
Definition text_of (s : string) : list Z := map (fun c => Z.of_nat (Ascii.nat_of_ascii c)) (list_ascii_of_string s).
Definition text_eqb (a b : list Z) : bool := if list_eq_dec Z.eq_dec a b then true else false.
Definition parse72 (x : list Z) : option ty :=
  if text_eqb x (text_of "uint") then Some TUInt else if text_eqb x (text_of "(optional uint)") then Some (TOpt TUInt) else if text_eqb x (text_of "(buff 2)") then Some (TBuff 2) else
  if text_eqb x (text_of "(optional bool)") then Some (TOpt TBool) else None.
Definition host72 : string -> option (list vt * (list val -> store (list value) -> result (list value))) :=
  fun f => if String.eqb f "stdlib.print" then Some (print_ps, i_print parse72 log72) else None.
Definition m72 : mem := write_bytes (write_bytes (write_bytes (write_bytes (write_bytes (blank 65536) 0 (text_of "uint")) 16 (text_of "(optional uint)")) 32 (text_of "(buff 2)")) 48 [7; 8]) 64 (text_of "(optional bool)").
Definition st72 (sp : Z) : store (list value) := mkstore m72 [("stack-pointer", VI32 sp); ("runtime-error-code", VI32 0)] [].
(** [(begin (print (+ x u1)) (print none) (let ((y (print (some x)))) (if (is-some y) (ok (print x)) (err u0))))] *)
Definition say : print_fun := mksay [("x", TUInt)]
  (SSeq (SPrint (text_of "uint") 0 (SExpr (EArith OAdd TUInt (EVar TUInt "x") [ENum TUInt 1])))
  (SSeq (SPrint (text_of "(optional bool)") 64 (SExpr (ENone (TOpt TNo))))
  (SLet "y" (SPrint (text_of "(optional uint)") 16 (SExpr (ESome (EVar TUInt "x"))))
  (SIf (SExpr (EIsSome (EVar (TOpt TUInt) "y"))) (SLet "z" (SPrint (text_of "uint") 0 (SExpr (EVar TUInt "x"))) (SExpr (EOk (EVar TUInt "z") TUInt))) (SExpr (EErr TUInt (ENum TUInt 0))))))).
(** [(print b)] for a [(buff 2)] *)
Definition say_buff : print_fun := mksay [("b", TBuff 2)] (SPrint (text_of "(buff 2)") 32 (SExpr (EVar (TBuff 2) "b"))).
Lemma module72 a : a = say \/ a = say_buff -> print_module parse72 log72 host72 [] "say" a.
Proof. intros Ha. split; destruct Ha as [->| ->]; try reflexivity; try (intros d []); repeat split; vm_compute; reflexivity. Qed.
Lemma text72 s o sp : In (s, o) [("uint", 0); ("(optional bool)", 64); ("(optional uint)", 16); ("(buff 2)", 32)] -> 400 <= sp ->
  held m72 (fun a => a < sp) (TAscii (Z.of_nat (length (text_of s))), CAscii (text_of s), o).
Proof.
  intros Hin Hsp. cbn [In] in Hin. 
  destruct Hin as [H|[H|[H|[H|[]]]]]; injection H as <- <-;
    (split; [match goal with |- has_type ?t ?v => assert (K : (if has_type_dec t v then true else false) = true) by (vm_compute; reflexivity); destruct (has_type_dec t v); [assumption|discriminate] end|]; 
     cbn [lit_len]; match goal with |- rep _ _ _ (CAscii ?x) [VI32 ?o; _] => apply (ascii_in_mem _ _ (Z.of_nat (length x)) x o); [vm_compute; reflexivity|lia|cbn; lia|cbn; lia] end).
Qed.
Lemma ready72 room a sp : a = say \/ a = say_buff -> 400 <= sp -> sp + room <= 65536 -> print_ready room [] a (st72 sp) sp.
Proof.
  intros Ha H1 H2. split; [reflexivity|eexists; reflexivity|lia|change (msize (smem (st72 sp))) with 65536; lia|vm_compute; discriminate|].
  destruct Ha as [->| ->]; cbn [pf_body say say_buff stmt_lits lits app prog_lits flat_map];
    repeat (first [apply Forall_nil|apply Forall_cons; [apply text72; [cbn; auto 10|exact H1]|]]).
Qed.
(** the hypotheses are met, and four events are registered, in order *)
Example C72_ex_hyps : print_module parse72 log72 host72 [] "say" say /\ print_ready (used [] say) [] say (st72 400) 400 /\
  rep_list m72 (fun a => a < 400) [TUInt] [CUInt 5] ([VI64 5; VI64 0] ++ []) /\
  run_print log72 true [] say [CUInt 5] [] = Some (Done (COk (CUInt 5)) [CUInt 6; CNone; CSome (CUInt 5); CUInt 5]).
Proof.
  split; [apply module72; auto|]. split; [apply ready72; [auto|lia|vm_compute; discriminate]|]. split; [constructor; [reflexivity|constructor]|]. vm_compute. reflexivity.
Qed.
Example C72_ex_run : match invoke (print_env host72 [] "say" say) 300 "say" [VI64 5; VI64 0] (st72 400) with
  | RVals ws st' => ws = [VI32 1; VI64 5; VI64 0; VI64 0; VI64 0] /\ shost st' = [CUInt 6; CNone; CSome (CUInt 5); CUInt 5]
  | _ => False end.
Proof. vm_compute. auto. Qed.

(** The generator asks for the bytes of the value only (words/print.rs 63-64,
    [include_repr = false]), and then writes the value's representation there, which for a
    buffer, string, list or principal is an address and a length, 8 bytes.  With exactly the
    memory the generator asks for, printing a [(buff 2)] stops. *)
Theorem C72_print_space_refuted : forall sp, sp = 65536 - requested [] say_buff ->
  print_module parse72 log72 host72 [] "say" say_buff /\ print_ready (requested [] say_buff) [] say_buff (st72 sp) sp /\
  rep_list m72 (fun a => a < sp) [TBuff 2] [CBuff [7; 8]] ([VI32 48; VI32 2] ++ []) /\
  run_print log72 true [] say_buff [CBuff [7; 8]] [] = Some (Done (CBuff [7; 8]) [CBuff [7; 8]]) /\
  exists st', calls (print_env host72 [] "say" say_buff) "say" [VI32 48; VI32 2] (st72 sp) (RTrap TMem st').
Proof.
  intros sp ->. change (requested [] say_buff) with 2. change (65536 - 2) with 65534.
  split; [apply module72; auto|]. split; [apply ready72; [auto|lia|lia]|]. split.
  { constructor; [|constructor]. exists 48. split; [reflexivity|]. split; [lia|]. split; [vm_compute; reflexivity|]. split; [split; [lia|]; split; [split; vm_compute; discriminate|vm_compute; reflexivity]|]. intros x Hx. cbn [length] in Hx. lia. }
  split; [vm_compute; reflexivity|].
  destruct (invoke (print_env host72 [] "say" say_buff) 300 "say" [VI32 48; VI32 2] (st72 65534)) as [|k st'| |] eqn:Hr; try (exfalso; vm_compute in Hr; discriminate Hr).
  assert (k = TMem) as -> by (assert (HH : match invoke (print_env host72 [] "say" say_buff) 300 "say" [VI32 48; VI32 2] (st72 65534) with RTrap k _ => k = TMem | _ => False end) by (vm_compute; reflexivity); rewrite Hr in HH; exact HH).
  exists st'. apply (calls_compute _ 300); [exact Hr|discriminate].
Qed.
Print Assumptions C72_print_space_refuted.
