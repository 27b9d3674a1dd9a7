(** * C66: what nft-mint?, nft-burn? and nft-transfer? leave on the stack *)
From Coq Require Import ZArith String List Bool Lia.
Import ListNotations.
From Verif Require Import Wasm Std StdEnv WasmLogic WasmTac Spec Mem MemFacts Bytes SpecBytes SpecUtf8 Clar Codec Rep RepFacts ArgProofs Emit EmitFacts Equal
  Ledger SpecLedger LedgerProofs PropLedger Ast SpecLang Lang PropLang3 PropLang4.
Open Scope string_scope.
Open Scope list_scope.
Open Scope Z_scope.

(** ** The compiled words *)

(** words/tokens.rs 336-397 [nft-burn?], 399-464 [nft-transfer?], 466-527 [nft-mint?]: the
    name, the identifier (evaluated, then written to the call stack), the principals, the
    call. Cost charging is left out (modelled on its own in Costs.v). *)
Definition e_nft (f : string) (n : list Z) (no : Z) (t : ty) (i : frag) (ps : list frag) : frag := fun d B l =>
  let '(ci, l) := i d B l in
  let '(o, size, cc, l) := create_call_stack_local t true false l in
  let '(cw, l) := write_to_memory t o 0 l in
  let '(cp, l) := operands ps d B l in
  (name_code n no ++ ci ++ cc ++ cw ++ [LGet o; Const (VI32 (size mod m32))] ++ cp ++ [Call f], l).
(** ** C66 *)
Definition nft_words : list string := ["stdlib.nft_mint"; "stdlib.nft_burn"; "stdlib.nft_transfer"].
Definition nft_res : ty := TResp TBool TUInt.
Definition ok_tt : value := COk (CBool true).

Lemma op_words (r : hres (list val)) : (forall vs g, r = HOk vs g -> vs = ok_nft \/ exists c, In c [1; 2; 3] /\ vs = err_code c) ->
  forall st m vs st', run_op st m r = RVals vs st' -> vs = ok_nft \/ exists c, In c [1; 2; 3] /\ vs = err_code c.
Proof. intros H st m vs st'. destruct r as [vs0 g|g]; cbn [run_op]; [|discriminate]. intros Hv. injection Hv as <- _. eapply H. reflexivity. Qed.
Ltac walk H := unfold op_nft_mint, op_nft_burn, op_nft_transfer, get_nft_owner, reading, cur, hbind, hget, hopt, hret, hfail, hguard, emit, db_mod, hmod, add_memory in H;
  repeat (match type of H with context [match ?x with _ => _ end] => destruct x end; try discriminate H);
  injection H as <- _; first [left; reflexivity|right; eexists; split; [|reflexivity]; cbn [In]; tauto].
Lemma nft_values : forall E f args st vs st', In f nft_words -> imports E f -> calls E f args st (RVals vs st') -> vs = ok_nft \/ exists c, In c [1; 2; 3] /\ vs = err_code c.
Proof.
  intros E f args st vs st' Hf Hi Hc.
  assert (K : forall ps h, assoc f ledger_host = Some (ps, h) -> h args st = RVals vs st').
  { intros ps h Hh. eapply calls_det; [eapply host_calls; eassumption|exact Hc]. }
  destruct Hf as [<-|[<-|[<-|[]]]]; specialize (K _ _ eq_refl);
  [unfold i_nft_mint in K|unfold i_nft_burn in K|unfold i_nft_transfer in K];
  repeat (match type of K with match ?x with _ => _ end = _ => destruct x end; try discriminate K);
  (eapply op_words; [|exact K]); intros ws g H; walk H.
Qed.

(** Whoever takes the result out of the module sees [(ok true)], [(err u1)], [(err u2)] or
    [(err u3)], whatever the arguments and the state ... *)
Theorem C66_results_read_back : forall E f args st ws st', In f nft_words -> imports E f -> calls E f args st (RVals ws st') ->
  exists v, wasm_to_clarity_value (smem st') nft_res ws = Some (Some v, 4%nat) /\ In v [ok_tt; CErr (CUInt 1); CErr (CUInt 2); CErr (CUInt 3)].
Proof.
  intros E f args st ws st' Hf Hi Hc. destruct (nft_values _ _ _ _ _ _ Hf Hi Hc) as [->|(c & Hin & ->)].
  - exists ok_tt. split; [reflexivity|left; reflexivity].
  - destruct Hin as [<-|[<-|[<-|[]]]]; eexists; (split; [reflexivity|cbn [In]; tauto]).
Qed.
Print Assumptions C66_results_read_back.

(** ... and the errors are the ones other code of the module can compare ... *)
Theorem C66_errors_are_errors_partial : forall E f args st ws st' c, In f nft_words -> imports E f -> calls E f args st (RVals ws st') ->
  wasm_to_clarity_value (smem st') nft_res ws = Some (Some (CErr (CUInt c)), 4%nat) -> forall m P, rep m P nft_res (CErr (CUInt c)) ws.
Proof.
  intros E f args st ws st' c Hf Hi Hc Hr m P. destruct (nft_values _ _ _ _ _ _ Hf Hi Hc) as [->|(c' & Hin & ->)]; [discriminate Hr|].
  unfold err_code in *. destruct Hin as [<-|[<-|[<-|[]]]]; cbn in Hr; injection Hr as <-; exists [VI32 0]; eexists; (split; [reflexivity|]); (split; [constructor; [cbn; lia|constructor]|reflexivity]).
Qed.
Print Assumptions C66_errors_are_errors_partial.

(** ... but the words of a success are the words of no Clarity value at all ... *)
Theorem C66_success_words_refuted : forall E f args st ws st', In f nft_words -> imports E f -> calls E f args st (RVals ws st') ->
  wasm_to_clarity_value (smem st') nft_res ws = Some (Some ok_tt, 4%nat) -> forall m P v, ~ rep m P nft_res v ws.
Proof.
  intros E f args st ws st' Hf Hi Hc Hr m P v HR. destruct (nft_values _ _ _ _ _ _ Hf Hi Hc) as [->|(c' & Hin & ->)].
  - destruct v as [| | | | | | | | | | |v|v|]; cbn [rep nft_res] in HR; try contradiction; destruct HR as (ws1 & ws2 & H1 & H2 & H3); [|discriminate H1].
    destruct v; try contradiction. subst ws1. destruct b; discriminate H1.
  - destruct Hin as [<-|[<-|[<-|[]]]]; discriminate Hr.
Qed.
Print Assumptions C66_success_words_refuted.

(** ... so that the comparison [is-eq] compiles to answers false, whatever the other operand
    is: [(is-eq (nft-mint? ..) (ok true))] is false even though the token was minted. *)
Theorem C66_is_eq_refuted : forall E f args st ws st', In f nft_words -> imports E f -> calls E f args st (RVals ws st') ->
  wasm_to_clarity_value (smem st') nft_res ws = Some (Some ok_tt, 4%nat) ->
  forall a b l c l' v ws2 P, wasm_equal nft_res a b l = (c, l') -> forall ls k (st2 : store gctx),
  has_type nft_res v -> rep (smem st2) P nft_res v ws2 -> lvals ls a ws -> lvals ls b ws2 ->
  runs E c (mkcfg ls k st2) (ONormal (mkcfg ls (VI32 0 :: k) st2)).
Proof.
  intros E f args st ws st' Hf Hi Hc Hr a b l c l' v ws2 P HC ls k st2 Hty HR Ha Hb. destruct (nft_values _ _ _ _ _ _ Hf Hi Hc) as [->|(c' & Hin & ->)].
  2: { destruct Hin as [<-|[<-|[<-|[]]]]; discriminate Hr. }
  unfold ok_nft, lvals in Ha. inversion Ha as [|a0 ? a' ? A0 Ha1]; subst. inversion Ha1 as [|a1 ? a'' ? A1 Ha2]; subst. clear Ha Ha1.
  cbn [wasm_equal nft_res clar2wasm_ty length tl firstn skipn] in HC.
  assert (T : exists tag tl2, ws2 = VI32 tag :: tl2 /\ (tag = 0 \/ tag = 1 /\ exists b1 tl3, tl2 = VI32 b1 :: tl3 /\ b1 <> 132)).
  { destruct v as [| | | | | | | | | | |v|v|]; cbn [rep nft_res] in HR; try contradiction; destruct HR as (w1 & w2 & -> & H2 & H3).
    - exists 1, (w1 ++ w2). split; [reflexivity|]. right. split; [reflexivity|]. destruct v; try contradiction. subst w1. exists (if b0 then 1 else 0), w2. split; [reflexivity|]. destruct b0; lia.
    - exists 0, (w1 ++ w2). split; [reflexivity|]. left. reflexivity. }
  destruct T as (tag & tl2 & -> & T). unfold lvals in Hb. inversion Hb as [|b0 ? b' ? B0 Hb1]; subst. 
  assert (HW : wp E c (mkcfg ls k st2) (fun o => o = ONormal (mkcfg ls (VI32 0 :: k) st2))).
  { pose proof (f_equal fst HC) as HC1. cbn [fst] in HC1. subst c. cbn [lnth nth tl firstn]. eapply wp_lget; [exact A0|]. eapply wp_lget; [exact B0|]. wpure.
    destruct T as [->|(-> & b1 & tl3 & -> & Hne)].
    - eapply wp_if; [reflexivity|]. wcbn. wpure. wnil. wnil. reflexivity.
    - inversion Hb1 as [|i1 ? b'' ? B1 Hb2]; subst. cbn [firstn nth lnth]. eapply wp_if; [reflexivity|]. wcbn. eapply wp_lget; [exact A0|]. eapply wp_if; [reflexivity|]. wcbn.
      eapply wp_lget; [exact A1|]. eapply wp_lget; [exact B1|]. wpure. wnil. wnil. wnil. rewrite (proj2 (Z.eqb_neq 132 b1)) by lia. reflexivity. }
  destruct HW as (f0 & o & H1 & ->). exists f0; exact H1.
Qed.
Print Assumptions C66_is_eq_refuted.

(** ** A compiled contract *)
(*  (define-private (mint (i uint) (p principal)) (nft-mint? tok i p))
    (define-private (minted (i uint) (p principal)) (is-eq (nft-mint? tok i p) (ok true)))
    (define-private (minted-ok (i uint) (p principal)) (is-ok (nft-mint? tok i p)))       *)
Definition ex_ps : list (string * ty) := [("i", TUInt); ("p", TPrin)].
Definition ex_nft : frag := e_nft "stdlib.nft_mint" tok 0 TUInt (e_var "i") [e_var "p"].
Definition ex_nfuns : list (string * func) :=
  [("mint", define_body ex_ps nft_res ex_nft);
   ("minted", define_body ex_ps TBool (e_eq nft_res ex_nft [e_ok (e_bool true) TUInt]));
   ("minted-ok", define_body ex_ps TBool (e_tag nft_res false ex_nft))].
Definition ex_nenv : env gctx := mkenv (fun n => match assoc n std_funs with Some f => Some f | None => assoc n ex_nfuns end) (fun f => assoc f ledger_host) std_table.
Definition ex_nst : store gctx := mkstore m0 [("stack-pointer", VI32 1000); ("runtime-error-code", VI32 0)] g0.
Definition ex_mint (f : string) : option (list val * option prin) :=
  match invoke ex_nenv 1000 f [VI64 7; VI64 0; VI32 100; VI32 22] ex_nst with RVals ws st' => Some (ws, d_owner (g_db (shost st')) tok (CUInt 7)) | _ => None end.
(** the asset is alice's after each of the three; only [is-ok] says so *)
Example C66_ex : ex_mint "mint" = Some (ok_nft, Some alice) /\ ex_mint "minted" = Some ([VI32 0], Some alice) /\ ex_mint "minted-ok" = Some ([VI32 1], Some alice).
Proof. vm_compute. auto. Qed.
