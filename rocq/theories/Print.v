(** * [print]: host function and generated code (model and proof support) *)
From Coq Require Import ZArith String List Bool Lia Arith.
Import ListNotations.
From Verif Require Import Wasm Std StdEnv WasmLogic WasmTac Spec Mem MemFacts Bytes SpecBytes SpecUtf8 Clar Codec Rep RepFacts ReadProofs WriteProofs ArgProofs Emit EmitFacts EmitProofs
  Ledger LedgerProofs Calls CallProofs PropLedger ConstProofs Ast SpecLang Lang Typing LangFacts LangBase LangCtl LangEarly LangMem LangSeq LangList LangCall LangPrim LangMain SpecPrint.
Open Scope string_scope.
Open Scope list_scope.
Open Scope Z_scope.

(** ** The generated code *)
(** wasm_generator.rs 739-776 [type_for_serialization] *)
Fixpoint serialized (t : ty) : ty :=
  match t with
  | TNo => TBool
  | TTrait _ => TPrin
  | TResp t e => TResp (serialized t) (serialized e)
  | TOpt t => TOpt (serialized t)
  | TList n t => TList n (serialized t)
  | TTuple fs => TTuple (map (fun f => (fst f, serialized (snd f))) fs)
  | t => t
  end.
(** words/print.rs 20-87; the text of the type is a literal at [to].  The cost charge is left
    out. *)
Definition e_print (t : ty) (text : list Z) (to : Z) (a : frag) : frag := fun d B l =>
  let '(ca, l) := a d B l in
  let '(is, cs, l) := save_to_locals t l in
  let '(vo, size, cc, l) := create_call_stack_local t false true l in
  let '(cw, l) := write_to_memory t vo 0 l in
  (ca ++ cs ++ push_locals is ++ cc ++ cw ++ [LGet vo; Const (VI32 (size mod m32)); Const (VI32 to); Const (VI32 (Z.of_nat (length text))); Call "stdlib.print"] ++ push_locals is, l).
Fixpoint comp_stmt (S : list (string * fsig)) (rt : ty) (s : stmt) : frag :=
  match s with
  | SExpr e => compile S rt e
  | SPrint text to s => e_print (stmt_ty s) text to (comp_stmt S rt s)
  | SSeq a b => e_seq (stmt_ty a) (comp_stmt S rt a) (comp_stmt S rt b)
  | SLet x a b => e_let x (stmt_ty a) (comp_stmt S rt a) (comp_stmt S rt b)
  | SIf c a b => e_if (stmt_ty a) (comp_stmt S rt c) (comp_stmt S rt a) (comp_stmt S rt b)
  end.

(** ** The host function, linker.rs 4563-4602; [parse]: [signature_from_string] *)
Section Host.
Context {HS : Type} (parse : list Z -> option ty) (log : HS -> value -> HS).
Definition i_print (a : list val) (st : store HS) : result HS :=
  match a with
  | [VI32 vo; VI32 _; VI32 to; VI32 tl] =>
      match hread (smem st) (sgn32 to) (sgn32 tl) with
      | Some text =>
          match parse text with
          | Some t =>
              match read_from_wasm_indirect (smem st) t (sgn32 vo) with
              | Some v => RVals [] (mkstore (smem st) (sglob st) (log (shost st) v))
              | None => RTrap THost st
              end
          | None => RTrap THost st
          end
      | None => RTrap THost st
      end
  | _ => RStuck
  end.
Definition print_ps : list vt := [T32; T32; T32; T32].
End Host.

(** ** The type that is serialized has the same words *)
Lemma ser_words t : clar2wasm_ty (serialized t) = clar2wasm_ty t.
Proof.
  induction t using ty_ind'; cbn [serialized clar2wasm_ty]; try reflexivity; try congruence.
  induction H as [|[k t] fs Ht H IH]; [reflexivity|]. cbn [map flat_map fst snd] in *. rewrite Ht, IH. reflexivity.
Qed.
Lemma ser_size t : words_size (clar2wasm_ty (serialized t)) = words_size (clar2wasm_ty t).
Proof. rewrite ser_words. reflexivity. Qed.
Lemma ser_ok t : ty_ok t -> ty_ok (serialized t).
Proof.
  induction t using ty_ind'; cbn [serialized ty_ok]; try tauto.
  intros (Hne & Hnd & Hok). split; [destruct fs; [congruence|discriminate]|]. split.
  - rewrite map_map. cbn [fst]. exact Hnd.
  - clear Hne Hnd. change (fields_ok fs) in Hok. change (fields_ok (map (fun f => (fst f, serialized (snd f))) fs)).
    induction H as [|[k t] fs Ht H IH]; cbn [map fields_ok fst snd] in *; [exact I|]. destruct Hok as (O1 & O2). split; [exact (Ht O1)|exact (IH O2)].
Qed.
Lemma ser_type t : forall v, has_type t v -> has_type (serialized t) (seen v).
Proof.
  induction t using ty_ind'; intros v Hv; destruct v; cbn [has_type serialized seen] in *; try contradiction; auto.
  - destruct Hv as (-> & Hp & _). exact Hp.
  - destruct Hv as (Hl & Hv). rewrite map_length. split; [exact Hl|]. apply Forall_map. eapply Forall_impl; [|exact Hv]. auto.
  - change (fields_typed fs fs0) in Hv. change (fields_typed (map (fun f => (fst f, serialized (snd f))) fs) (map (fun f => (fst f, seen (snd f))) fs0)).
    revert fs0 Hv. induction H as [|[k t] fs Ht H IH]; intros [|[k' v] vs]; cbn [map fields_typed fst snd]; try tauto.
    intros (-> & V1 & V2). split; [reflexivity|]. split; [exact (Ht v V1)|exact (IH vs V2)].
Qed.
Lemma ser_rep m P t : forall v ws, rep m P t v ws -> rep m P (serialized t) (seen v) ws.
Proof.
  induction t using ty_ind'; intros v ws Hr; destruct v; cbn [serialized seen] in *; try (cbn [rep] in Hr; contradiction); try exact Hr.
  - cbn [rep] in *. destruct Hr as (_ & Hr). exact Hr.
  - change (exists o, ws = [VI32 o; VI32 (Z.of_nat (length vs) * words_size (clar2wasm_ty t))] /\ 0 <= o < m32 /\ Z.of_nat (length vs) * words_size (clar2wasm_ty t) < m32 /\
      o + Z.of_nat (length vs) * words_size (clar2wasm_ty t) <= msize m <= m32 /\ inside P o (Z.of_nat (length vs) * words_size (clar2wasm_ty t)) /\ rep_elems m P t vs o) in Hr.
    cbn [rep]. rewrite map_length, ser_words. destruct Hr as (o & H1 & H2 & H3 & H4 & H5 & H6). exists o. do 5 (split; [assumption|]).
    rewrite <- (ser_words t). change (rep_elems m P (serialized t) (map seen vs) o). clear - IHt H6. revert o H6. induction vs as [|v vs IH]; intros o; cbn [map rep_elems]; [auto|].
    intros ((w & W1 & W2) & H). rewrite ser_words. split; [exists w; split; [exact W1|exact (IHt _ _ W2)]|exact (IH _ H)].
  - cbn [rep] in *. rewrite ser_words. exact Hr.
  - cbn [rep] in *. destruct Hr as (w & -> & Hr). eauto.
  - cbn [rep] in *. rewrite ser_words. destruct Hr as (w1 & w2 & -> & H1 & H2). eauto 6.
  - cbn [rep] in *. rewrite ser_words. destruct Hr as (w1 & w2 & -> & H1 & H2). eauto 6.
  - rewrite rep_tuple in *. revert fs0 ws Hr. induction H as [|[k t] fs Ht H IH]; intros [|[k' v] vs] ws; cbn [map rep_fields fst snd]; try tauto.
    intros (w1 & w2 & -> & -> & R1 & R2). exists w1, w2. split; [reflexivity|]. split; [reflexivity|]. split; [exact (Ht _ _ R1)|exact (IH _ _ R2)].
Qed.

(** ** The compiled word *)
Section Word.
Context {HS : Type} {CH : chain HS} (E : env HS) (parse : list Z -> option ty) (log : HS -> value -> HS).
Context (Hf : efun E "stdlib.print" = None) (Hh : ehost E "stdlib.print" = Some (print_ps, i_print parse log)) (Hcap : chain_cap (HS := HS) <= 2 ^ 31 - 1).
Context (rt : ty) (L : list (ty * value * Z)) (X : Z) (HX0 : 0 <= X).
Notation wp := (wp E).
Notation impl := (impl E rt L X).
Notation impl_next1 := (impl_next1 E rt L X).
Notation impl_fr := (impl_fr E rt L X).
Notation impl_ext := (impl_ext E rt L X).

Lemma print_calls args st : calls E "stdlib.print" args st (i_print parse log args st).
Proof. exists 0%nat. intros n _. unfold invoke, call_func. rewrite Hf, Hh. reflexivity. Qed.
Lemma print_run P t v ws vo vl text to (st : store HS) : ty_ok t -> has_type t v -> rep (smem st) P t v ws -> words_at (smem st) vo ws ->
  holds (smem st) to text -> parse text = Some (serialized t) -> msize (smem st) < 2 ^ 31 -> 0 <= vo -> vo + get_type_size t <= msize (smem st) ->
  called E "stdlib.print" [VI32 vo; VI32 vl; VI32 to; VI32 (Z.of_nat (length text))] st (fun r => r = RVals [] (mkstore (smem st) (sglob st) (log (shost st) (seen v)))).
Proof.
  intros Hok Hty Hr Hw Ht Hp Hm H0 H1. split; [unfold fun_arity; rewrite Hf, Hh; reflexivity|]. eapply calls_wpf; [apply print_calls|].
  cbn [i_print]. destruct (holds_small _ _ _ Ht Hm) as [E1 E2]. rewrite E1, E2, (hread_holds _ _ _ Ht), Hp.
  assert (Hvo : sgn32 vo = vo) by (pose proof (size_nonneg t); apply sgn32_small; change (2 ^ 31) with h32 in Hm; lia). rewrite Hvo.
  rewrite (read_indirect_back (smem st) P ltac:(change h32 with (2 ^ 31); lia) (serialized t) (seen v) ws vo (ser_ok _ Hok) (ser_rep _ _ _ _ _ Hr) (ser_type _ _ Hty) Hw). reflexivity.
Qed.

Definition print_room (t : ty) : Z := Z.max (call_stack_size t false true) (get_type_size t).
Lemma print_ok G t text to fr (c : frag) (m : venv -> M HS value) : ty_ok t -> parse text = Some (serialized t) -> In (TAscii (Z.of_nat (length text)), CAscii text, to) L ->
  impl G t fr c m -> impl G t (fr + print_room t) (e_print t text to c) (fun r => bind (m r) (do_print log)).
Proof.
  intros Hok Hparse Hin IH. pose proof (impl_fr _ _ _ _ _ IH) as Pf. pose proof (size_nonneg t) as Psz.
  assert (Pb : 0 <= call_stack_size t false true) by (apply (inmem_nonneg t false Hok)).
  assert (Pr : call_stack_size t false true <= print_room t /\ get_type_size t <= print_room t) by (unfold print_room; lia). destruct Pr as (Pr1 & Pr2).
  split; [lia|]. intros d B l code l' HC Hw. unfold e_print in HC.
  destruct (c d B l) as [ch l1] eqn:Ech. destruct (save_to_locals t l1) as [[is cs] l2] eqn:Es.
  destruct (create_call_stack_local t false true l2) as [[[vo size] cc] l3] eqn:Ec. destruct (write_to_memory t vo 0 l3) as [cw l4] eqn:Ew.
  pose proof (f_equal fst HC) as HC1; pose proof (f_equal snd HC) as HC2; cbn [fst snd] in HC1, HC2; clear HC; subst code l'.
  assert (Hsize : size = call_stack_size t false true) by (unfold create_call_stack_local in Ec; destruct (add_local T32 l2); congruence).
  pose proof (impl_ext _ _ _ _ _ _ _ _ _ _ IH Ech Hw) as X1.
  destruct (save_ok E _ _ _ _ _ Es (lext_wf _ _ X1)) as (Xs & Hlv & _ & Hsave).
  destruct (reserve_run E L X HX0 _ _ _ _ _ _ _ _ Ec (lext_wf _ _ Xs)) as (Xc & Lo & No & Hres).
  destruct (write_memory_ok E t _ _ _ _ _ Ew (lext_wf _ _ Xc) Lo) as (Xw & Hwr).
  assert (Y2 : lext l l2) by (eapply lext_trans; eauto). assert (Y3 : lext l l3) by (eapply lext_trans; eauto). assert (Y4 : lext l l4) by (eapply lext_trans; eauto). split; [exact Y4|].
  intros F r js ls k st sp Q rs Hm HC HL HX HW. rewrite <- !app_assoc.
  pose proof (c_lo _ _ _ _ _ _ _ _ _ _ _ HC) as Hlo. pose proof (c_room _ _ _ _ _ _ _ _ _ _ _ HC) as Hrm. pose proof (c_cap _ _ _ _ _ _ _ _ _ _ _ HC) as Hcp.
  assert (N1 : (llen l1 <= length ls)%nat /\ (llen l2 <= length ls)%nat /\ (llen l3 <= length ls)%nat) by (apply lext_len in Xs, Xc, Xw; lia). destruct N1 as (N1 & N2 & N3).
  assert (HM0 : moved l ls st sp 0 ls st sp) by (eapply moved_refl; exact HC).
  eapply (impl_next1 _ _ _ _ _ _ _ _ _ _ IH Ech F F); [exact HM0| |apply lext_refl; exact Hw|auto|eapply ctx_less; [exact HC|lia]|exact Hm|exact HX|exact N1|]; [lia|].
  intros v h ls2 st2 sp2 ws HG HM2 Hm2 HLv. cbn [Z.add] in HM2.
  pose proof (g_rep _ _ _ _ _ _ _ _ _ _ _ _ _ HG) as Hrep. pose proof (g_type _ _ _ _ _ _ _ _ _ _ _ _ _ HG) as Hty.
  assert (Hl2 : length ls2 = length ls) by (eapply lkeep_len, m_ls; exact HM2).
  (* the value goes to locals and comes back *)
  eapply Hsave; [exact HLv|lia|]. intros ls3 K3 HV3.
  assert (HM3 : moved l ls st sp fr ls3 st2 sp2) by (eapply moved_ls'; [exact HM2|exact X1|exact K3]).
  apply (wp_lgets E is ws); [exact HV3|].
  (* the space *)
  assert (HC3 : ctx L X G B r F l2 ls3 st2 sp2 (print_room t)) by (eapply ctx_moved; [exact HC|exact Y2|exact HM3|lia]).
  pose proof (ctx_msize L X _ _ _ _ _ _ _ _ _ _ _ _ _ HC HM3) as Hms. pose proof (m_rng _ _ _ _ _ _ _ _ HM3) as Hr2.
  assert (Hl3 : length ls3 = length ls) by (eapply lkeep_len, m_ls; exact HM3).
  eapply Hres; [exact HC3|subst size; lia|lia|]. intros ls4 st4 Hh4 Hmem4 HM4 Ho4 HC4. subst size. set (sz := call_stack_size t false true) in *.
  assert (HM4' : moved l ls st sp (fr + sz) ls4 st4 (sp2 + sz)) by (eapply moved_trans; [exact Y2|exact HM3|exact HM4]).
  assert (Hl4 : length ls4 = length ls) by (eapply lkeep_len, m_ls; exact HM4').
  eapply Hwr; [exact Ho4|lia|eapply rep_typed; exact Hrep|lia|lia|rewrite Hmem4; lia|]. intros ls5 m5 K5 O5 W5. rewrite Z.add_0_r in *.
  assert (HM5 : moved l ls st sp (fr + sz) ls5 (with_mem st4 m5) (sp2 + sz)).
  { eapply moved_write; [|exact O5|lia]. eapply moved_ls'; [exact HM4'|exact Y3|exact K5]. }
  assert (Ho5 : nth_error ls5 vo = Some (VI32 sp2)) by (rewrite (lkeep_get _ _ _ _ K5 Lo); exact Ho4).
  assert (Hrep5 : rep m5 (vis F sp2) t v ws).
  { eapply rep_frame; [| | |exact Hrep]; [rewrite <- Hmem4; apply O5| |auto]. intros x (Hx & _). rewrite <- Hmem4. apply O5. lia. }
  cbn [app]. eapply wp_lget; [exact Ho5|]. do 3 apply wp_const.
  assert (HCn : ctx L X G B r F l4 ls5 (with_mem st4 m5) (sp2 + sz) 0) by (eapply ctx_moved with (n' := 0); [exact HC|exact Y4|exact HM5|lia]).
  assert (Hz : msize m5 = msize (smem st)) by (rewrite <- Hms, <- Hmem4; apply O5).
  destruct (print_run (vis F sp2) t v (blank t ws) sp2 (sz mod m32) text to (with_mem st4 m5)) as (Ha & Hcall); auto.
  - cbn [smem with_mem]. apply blank_rep. exact Hrep5.
  - eapply name_held; [exact HCn|exact Hin].
  - cbn [smem with_mem]. lia.
  - lia.
  - cbn [smem with_mem]. lia.
  - eapply (wp_call_all E _ _ [VI32 sp2; VI32 (sz mod m32); VI32 to; VI32 (Z.of_nat (length text))]); [exact Ha|reflexivity|].
    eapply wpf_mono; [exact Hcall|]. intros r0 ->. unfold qcall. cbn [ret_call cont rev app].
    set (st6 := mkstore _ _ _).
    assert (HM6 : moved l ls st sp (fr + print_room t) ls5 st6 (sp2 + sz)).
    { destruct HM5 as [A1 A2 A3 A4 A5]. constructor; auto. lia. }
    assert (HV5 : lvals ls5 is ws).
    { eapply lvals_keep; [| |exact HV3]; [|exact Hlv]. destruct HM4 as [B1 _ _ _ _]. eapply lkeep_trans; [exact Xc|exact B1|exact K5]. }
    apply (wp_lgets E is ws); [exact HV5|].
    unfold do_print in Hm2. injection Hm2 as <-.
    eapply HW; [reflexivity|]. constructor; [exact HM6| |exact Hty|cbn [shost st6 with_mem]; rewrite Hh4; reflexivity].
    eapply rep_frame; [reflexivity|auto| |exact Hrep5]. intros x (Hx1 & Hx2). split; [lia|exact Hx2].
Qed.
End Word.
