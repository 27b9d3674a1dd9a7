(** * [contract-call?] of a contract known when the caller is compiled (model and proof support) *)
From Coq Require Import ZArith String List Bool Lia Arith.
Import ListNotations.
From Verif Require Import Wasm Std StdEnv WasmLogic WasmTac Spec Mem MemFacts Bytes SpecBytes SpecUtf8 Clar Codec Rep RepFacts ReadProofs WriteProofs ArgProofs PropCodec Emit EmitFacts EmitProofs
  Ledger LedgerProofs Calls CallProofs PropLedger PropStore Const ConstProofs Ast SpecLang Lang Typing LangFacts LangBase LangCtl LangEarly LangMem LangSeq LangList LangCall LangPrim LangMain SpecChain LangHost.
Open Scope string_scope.
Open Scope list_scope.
Open Scope Z_scope.

(** ** The generated code: words/contract.rs 61-195 *)

(** [sum] of [get_type_size], 151 *)
Definition sizes (ts : list ty) : Z := fold_right (fun t n => get_type_size t + n) 0 ts.
(** 158-164: each argument is evaluated and written after the ones before it *)
Fixpoint store_args (o : nat) (off : Z) (ts : list ty) (es : list frag) (d : nat) (B : benv) (l : lst) : list instr * lst :=
  match ts, es with
  | t :: ts, e :: es =>
      let '(c, l) := e d B l in
      let '(cw, l) := write_to_memory t o off l in
      let '(cr, l) := store_args o (off + get_type_size t) ts es d B l in
      (c ++ cw ++ cr, l)
  | _, _ => ([], l)
  end.
(** 80-192 for a contract principal that is a literal (at [co]); [fo] is the address of the
    function's name.  A call through a trait (94-128) is left out, and so is the cost charge. *)
Definition e_contract_call (c : prin) (co : Z) (f : list Z) (fo : Z) (ts : list ty) (t : ty) (es : list frag) : frag := fun d B l =>
  let '(o, l) := add_local T32 l in
  let '(ca, l) := store_args o 0 ts es d B l in
  let '(ro, size, cc, l) := create_call_stack_local t true true l in
  ([Const (VI32 0); Const (VI32 0); Const (VI32 co); Const (VI32 (lit_len (CPrin c)))] ++ name_code f fo ++
   [GGet "stack-pointer"; LTee o; Const (VI32 (sizes ts mod m32)); B32 Add; GSet "stack-pointer"] ++ ca ++
   [LGet o; Const (VI32 (sizes ts mod m32))] ++ cc ++ [LGet ro; Const (VI32 (size mod m32)); Call "stdlib.contract_call"] ++ read_from_memory t ro 0, l).

(** ** What the call does *)
Definition network := prin -> name -> option deployed.
(** The callee runs with this contract as [contract-caller].  Afterwards the tables are
    what it left.  [restore]: whether this contract's own [contract-caller] is what it was
    (the reference), or what the host made it for the callee (linker.rs 4389, never undone:
    C45). *)
Definition call_other (restore : bool) (net : network) (c : prin) (f : name) (t : ty) (vs : list value) : M gctx value := fun g =>
  match net c f with
  | Some d =>
      let g1 := push_caller (g_self g) g in
      match dp_run d vs g1 with
      | HOk v g2 => if has_type_dec t v then Some (Done v (g_shared (if restore then g else g1) g2)) else None
      | HErr _ => refuse
      end
  | None => refuse
  end.

(** The host reads an argument with the parameter's type [t]; the caller wrote it with the
    argument's own type [s].  The readings agree when no component that another one follows
    has a different size. *)
Definition passes (s t : ty) : Prop := ConstProofs.below s t /\ fits s t /\ get_type_size s = get_type_size t.

(** ** Consecutive values *)
Fixpoint laid (m : mem) (P : Z -> Prop) (ts : list ty) (vs : list value) (a : Z) : Prop :=
  match ts, vs with
  | [], [] => True
  | t :: ts, v :: vs => (exists ws, rep m P t v ws /\ words_at m a ws) /\ laid m P ts vs (a + get_type_size t)
  | _, _ => False
  end.
Lemma sizes_nonneg ts : 0 <= sizes ts.
Proof. induction ts as [|t ts IH]; cbn [sizes fold_right]; [lia|]. pose proof (size_nonneg t). fold (sizes ts). lia. Qed.
Lemma sizes_app ts us : sizes (ts ++ us) = sizes ts + sizes us.
Proof. induction ts as [|t ts IH]; cbn [app sizes fold_right]; [reflexivity|]. fold (sizes ts) (sizes (ts ++ us)). lia. Qed.
Lemma laid_app m P ts us : forall vs ws a, laid m P ts vs a -> laid m P us ws (a + sizes ts) -> laid m P (ts ++ us) (vs ++ ws) a.
Proof.
  induction ts as [|t ts IH]; intros [|v vs] ws a H1 H2; cbn [laid app] in *; try contradiction.
  - cbn [sizes fold_right] in H2. rewrite Z.add_0_r in H2. exact H2.
  - destruct H1 as (H0 & H1). split; [exact H0|]. apply IH; [exact H1|]. cbn [sizes fold_right] in H2. fold (sizes ts) in H2. rewrite Z.add_assoc in H2. exact H2.
Qed.
Lemma laid_frame m m' (P P' : Z -> Prop) ts : forall vs a, msize m' = msize m -> (forall x, P x -> rd m' x = rd m x) -> (forall x, P x -> P' x) ->
  (forall x, a <= x < a + sizes ts -> rd m' x = rd m x) -> laid m P ts vs a -> laid m' P' ts vs a.
Proof.
  induction ts as [|t ts IH]; intros [|v vs] a Hs HP HP' HA H; cbn [laid] in *; try contradiction; auto.
  cbn [sizes fold_right] in HA. fold (sizes ts) in HA. pose proof (size_nonneg t) as Hn. pose proof (sizes_nonneg ts) as Hn2.
  destruct H as ((ws & H1 & H2) & H3). split.
  - exists ws. split; [eapply rep_frame; eauto|]. pose proof (rep_words_len _ _ _ _ _ H1) as HLw. destruct H2 as (A1 & A2 & A3). split; [exact A1|]. split; [rewrite Hs; exact A2|].
    etransitivity; [|exact A3]. apply bytes_at_ext. intros x Hx. apply HA. lia.
  - apply IH; auto. intros x Hx. apply HA. lia.
Qed.

(** the callee's host reads back what was laid out *)
Lemma read_laid m P us : forall ss vs a, Forall2 passes ss us -> Forall ty_ok us -> Forall2 has_type ss vs -> laid m P ss vs a -> 0 <= a -> a + sizes ss <= msize m -> msize m < 2 ^ 31 ->
  read_args m us a = Some vs.
Proof.
  induction us as [|t us IH]; intros ss vs a Hp Hok Hty HL H0 H1 Hm; inversion Hp as [|s ? ss' ? (B1 & B2 & B3) Hp']; subst; inversion Hty as [|? v ? vs' T1 T2]; subst; [reflexivity|].
  inversion Hok as [|? ? O1 O2]; subst. cbn [laid] in HL. destruct HL as ((ws & R1 & R2) & R3). cbn [sizes fold_right] in H1. fold (sizes ss') in H1. pose proof (size_nonneg s) as Hn. pose proof (sizes_nonneg ss') as Hn2.
  destruct (words_exist m (clar2wasm_ty t) a) as (ws' & T' & W'); [exact H0|rewrite words_size_ty, <- B3; lia|change m32 with (2 * 2 ^ 31); lia|].
  pose proof (fits_rep m P s t v a ws ws' B1 B2 T1 R1 R2 T' W') as HR.
  cbn [read_args]. rewrite (read_indirect_back m P ltac:(change h32 with (2 ^ 31); lia) t v ws' a O1 HR (below_has_type _ _ _ B1 T1) W').
  rewrite <- B3, (IH ss' vs' (a + get_type_size s) Hp' O2 T2 R3 ltac:(lia) ltac:(lia) Hm). reflexivity.
Qed.

(** ** The host call *)
Lemma back_at (st : store gctx) t v ro g : ty_ok t -> storable t = true -> has_type t v -> msize (smem st) < 2 ^ 31 -> 0 <= ro -> 0 <= call_stack_size t true true ->
  ro + call_stack_size t true true <= msize (smem st) ->
  gave st ro t (Done v g) (return_value st t ro (HOk v g)).
Proof.
  intros Hok Hst Ht Hm H0 Hb H1.
  pose proof (back_ok st t v ro Hok Hst Ht Hm H0 Hb H1) as K. unfold return_value in *.
  destruct (write_to_wasm _ _ _ _ _ _) as [[[m' ?] ?]|]; cbn [gave] in *; [|destruct K as (m' & ws & K & _); discriminate K].
  destruct K as (m1 & ws & E & K). exists m', ws. assert (m' = m1) as -> by congruence. split; [reflexivity|exact K].
Qed.

Section Call.
Context (E : env gctx) (net : network) (Hc : efun E "stdlib.contract_call" = None) (Hh : ehost E "stdlib.contract_call" = Some (T 10, i_contract_call net)).
Context (rt : ty) (L : list (ty * value * Z)) (X : Z) (HX0 : 0 <= X).
Notation wp := (wp E).
Notation impl := (impl (CH := ledger_chain) E rt L X).
Notation ctx := (ctx (CH := ledger_chain) L X).
Notation sub_ok := (sub_ok (CH := ledger_chain) E rt L X).
Notation impl_next1 := (impl_next1 (CH := ledger_chain) E rt L X).
Notation impl_fr := (impl_fr (CH := ledger_chain) E rt L X).
Notation impl_ext := (impl_ext (CH := ledger_chain) E rt L X).
Ltac fr_of H := let P := fresh "P" in pose proof (impl_fr _ _ _ _ _ H) as P.
Ltac ext_of H E X := let W := fresh in
  match type of E with ?c ?d ?B ?l = _ =>
    assert (W : lwf l) by (assumption || (eapply lext_wf; eassumption));
    pose proof (impl_ext _ _ _ _ _ _ _ _ _ _ H E W) as X; clear W end.
Ltac lenl := repeat match goal with H : lext _ _ |- _ => apply lext_len in H | H : moved _ _ _ _ _ _ _ _ |- _ => apply m_ls, lkeep_len in H end; lia.

(** what the callee gives back is of the type the call has *)
Definition callable (c : prin) (f : name) (ss : list ty) (t : ty) : Prop :=
  forall d, net c f = Some d -> dp_ret d = t /\ Forall ty_ok (dp_args d) /\ Forall2 passes ss (dp_args d).

Lemma outcall_calls args st : calls E "stdlib.contract_call" args st (i_contract_call net args st).
Proof. exists 0%nat. intros n _. unfold invoke, call_func. rewrite Hc, Hh. reflexivity. Qed.
Lemma contract_call_run (c : prin) co f fo ss t vs P a ro al rl (st : store gctx) rs :
  (exists v h n, c = PCon v h n) -> is_clarity_name f = true -> callable c f ss t -> ty_ok t -> storable t = true ->
  prin_at (smem st) co (lit_len (CPrin c)) c -> holds (smem st) fo f -> Forall2 has_type ss vs -> laid (smem st) P ss vs a ->
  0 <= a -> a + sizes ss <= msize (smem st) -> msize (smem st) < 2 ^ 31 -> 0 <= ro -> 0 <= call_stack_size t true true -> ro + call_stack_size t true true <= msize (smem st) ->
  call_other false net c f t vs (shost st) = Some rs ->
  called E "stdlib.contract_call" [VI32 0; VI32 0; VI32 co; VI32 (lit_len (CPrin c)); VI32 fo; VI32 (Z.of_nat (length f)); VI32 a; VI32 al; VI32 ro; VI32 rl] st (gave st ro t rs).
Proof.
  intros Hcon Hf Hca Hok Hst Hp Hn Hty HL H0 H1 Hm Hr0 Hb Hr1 Hrs. split; [unfold fun_arity; rewrite Hc, Hh; reflexivity|].
  eapply calls_wpf; [apply outcall_calls|].
  cbn [i_contract_call]. rewrite (read_prin_at _ _ _ _ Hp), (name_is _ _ _ Hn Hm Hf). destruct Hcon as (cv & ch & cn & ->).
  unfold call_other in Hrs. destruct (net (PCon cv ch cn) f) as [d|] eqn:Hd.
  2:{ injection Hrs as <-. split; [reflexivity|]. eexists. reflexivity. }
  destruct (Hca d Hd) as (Hret & Hoks & Hps).
  assert (Ha : sgn32 a = a) by (apply sgn32_small; pose proof (sizes_nonneg ss); change (2 ^ 31) with h32 in Hm; lia).
  rewrite Ha, (read_laid _ _ _ _ _ _ Hps Hoks Hty HL H0 H1 Hm), Hret. unfold op_contract_call.
  destruct (dp_run d vs _) as [v g2|g2].
  - destruct (has_type_dec t v) as [Hv|]; [|discriminate]. injection Hrs as <-. apply back_at; assumption.
  - injection Hrs as <-. split; [reflexivity|]. eexists. reflexivity.
Qed.

(** ** The arguments *)
Lemma args_ext G o ss : forall off d B l cs l', store_args o off (map s_t ss) (map s_c ss) d B l = (cs, l') -> Forall (sub_ok G) ss -> live l o -> lwf l -> lext l l'.
Proof.
  induction ss as [|s ss IH]; intros off d B l cs l' H Hs Ho Hw; cbn in H.
  - injection H as <- <-. apply lext_refl; auto.
  - destruct (s_c s d B l) as [c l1] eqn:Ec. destruct (write_to_memory (s_t s) o off l1) as [cw l2] eqn:Ew.
    destruct (store_args o (off + get_type_size (s_t s)) (map s_t ss) (map s_c ss) d B l2) as [cr l3] eqn:Eb. injection H as <- <-.
    inversion Hs as [|? ? H1 H2]; subst. unfold LangCtl.sub_ok in H1. ext_of H1 Ec Xc.
    destruct (write_memory_ok E (s_t s) _ _ _ _ _ Ew (lext_wf _ _ Xc) (lext_live _ _ _ Xc Ho)) as (Xw & _).
    assert (X2 : lext l l2) by (eapply lext_trans; eauto). eapply lext_trans; [exact X2|]. eapply IH; eauto; [eapply lext_live; eauto|eapply lext_wf; eauto].
Qed.

Lemma args_run {A} G B r (F : Z -> Prop) l ls (st : store gctx) sp n d Q (rs : res gctx A) k o size :
  ctx G B r F l ls st sp n -> exits rt d F l ls st sp n Q rs -> ~ live l o -> 0 <= size -> msize (smem st) < m32 ->
  forall ss l1 ts vs cs l2, store_args o (sizes ts) (map s_t ss) (map s_c ss) d B l1 = (cs, l2) -> Forall (sub_ok G) ss ->
  lext l l1 -> live l1 o -> (llen l2 <= length ls)%nat -> sizes ts + sizes (map s_t ss) <= size ->
  forall ls1 st1 sp1 n1, moved l ls st sp n1 ls1 st1 sp1 -> n1 + sfr ss <= n -> sp + size <= sp1 -> nth_error ls1 o = Some (VI32 sp) ->
    ctx G B r (minus F sp size) l1 ls1 st1 sp1 (sfr ss) ->
    laid (smem st1) (fun x => x < sp1 /\ ~ (sp <= x < sp + size)) ts vs sp -> Forall2 has_type ts vs ->
  forall (f : list value -> M gctx A) js, bind (mapM (map (fun s => s_m s r) ss)) f (shost st1) = Some rs ->
    (forall vs' ls2 st2 sp2, Forall2 has_type (ts ++ map s_t ss) (vs ++ vs') -> laid (smem st2) (fun x => x < sp2) (ts ++ map s_t ss) (vs ++ vs') sp ->
       moved l ls st sp (n1 + sfr ss) ls2 st2 sp2 -> nth_error ls2 o = Some (VI32 sp) -> sp1 <= sp2 -> f vs' (shost st2) = Some rs -> wp js (mkcfg ls2 k st2) Q) ->
    wp (cs ++ js) (mkcfg ls1 k st1) Q.
Proof.
  intros HC HX Hno Hsz Hms. induction ss as [|s ss IH]; intros l1 ts vs cs l2 H Hs Xl Ho HL Hend ls1 st1 sp1 n1 HM Hn Hsp Hol HC1 Hr Hty f js Hm HW.
  - cbn in H. injection H as <- <-. cbn [app]. apply (HW [] ls1 st1 sp1); [|  | |exact Hol|lia|exact Hm].
    + rewrite !app_nil_r. exact Hty.
    + rewrite !app_nil_r. eapply laid_frame; [reflexivity|auto| |auto|exact Hr]. intros x (Hx & _). exact Hx.
    + cbn [sfr fold_right]. rewrite Z.add_0_r. exact HM.
  - cbn [map store_args] in H. destruct (s_c s d B l1) as [c l3] eqn:Ec. destruct (write_to_memory (s_t s) o (sizes ts) l3) as [cw l4] eqn:Ew.
    destruct (store_args o (sizes ts + get_type_size (s_t s)) (map s_t ss) (map s_c ss) d B l4) as [cr l5] eqn:Eb. injection H as <- <-.
    inversion Hs as [|? ? H1 H2]; subst. unfold LangCtl.sub_ok in H1. ext_of H1 Ec Xc.
    destruct (write_memory_ok E _ _ _ _ _ _ Ew (lext_wf _ _ Xc) (lext_live _ _ _ Xc Ho)) as (Xw & Hst).
    assert (X4 : lext l1 l4) by (eapply lext_trans; eauto). assert (X4' : lext l l4) by (eapply lext_trans; eauto).
    pose proof (args_ext _ _ _ _ _ _ _ _ _ Eb H2 (lext_live _ _ _ X4 Ho) (lext_wf _ _ X4)) as Xd.
    fr_of H1. pose proof (sfr_nonneg (CH := ledger_chain) _ _ _ _ _ _ H2) as P2. cbn [sfr fold_right] in Hn, HC1, HW. fold (sfr ss) in Hn, HC1, HW.
    cbn [map sizes fold_right] in Hend. fold (sizes (map s_t ss)) in Hend. pose proof (size_nonneg (s_t s)) as Hp. pose proof (sizes_nonneg ts) as Hp0. pose proof (sizes_nonneg (map s_t ss)) as Hp2.
    rewrite <- !app_assoc. cbn [map mapM] in Hm. rewrite bind_assoc in Hm.
    eapply (impl_next1 _ _ _ _ _ _ _ _ _ _ H1 Ec F (minus F sp size)); [exact HM| |exact Xl|apply minus_sub|eapply ctx_less; [exact HC1|lia]|exact Hm|exact HX|lenl|]; [lia|].
    intros v h ls2 st2 sp2 ws HG HM2 Hm2 HLv. cbv beta in Hm2. rewrite bind_assoc in Hm2.
    assert (HM1 : moved l1 ls1 st1 sp1 (s_fr s) ls2 st2 sp2) by apply HG.
    assert (Hol2 : nth_error ls2 o = Some (VI32 sp)) by (rewrite (lkeep_get _ _ _ _ (m_ls _ _ _ _ _ _ _ _ HM1)); auto).
    pose proof (ctx_msize (CH := ledger_chain) _ _ _ _ _ _ _ _ _ _ _ _ _ _ _ HC HM2) as Hmz. pose proof (c_lo _ _ _ _ _ _ _ _ _ _ _ HC) as Hlo.
    pose proof (m_rng _ _ _ _ _ _ _ _ HM1) as Hr1. pose proof (c_room _ _ _ _ _ _ _ _ _ _ _ HC1) as Hrm. pose proof (ctx_msize (CH := ledger_chain) _ _ _ _ _ _ _ _ _ _ _ _ _ _ _ HC HM) as Hmz1.
    eapply Hst; [exact Hol2|lenl|eapply rep_typed; apply HG|exact Hlo|exact Hp0|split; [|lia]|].
    { rewrite Hmz. rewrite Hmz1 in Hrm. lia. }
    intros ls3 m3 HK3 Ho3 Hw3.
    pose proof (moved_write _ _ _ _ _ _ _ _ _ _ _ (moved_ls' _ _ _ _ _ _ _ _ _ _ HM2 (lext_trans _ _ _ Xl Xc) HK3) Ho3 ltac:(lia)) as HM3.
    assert (Hz3 : msize m3 = msize (smem st2)) by apply Ho3.
    assert (HLs : laid m3 (fun x => x < sp2 /\ ~ (sp <= x < sp + size)) (ts ++ [s_t s]) (vs ++ [v]) sp).
    { apply laid_app.
      - eapply (laid_frame (smem st2) m3 (fun x => x < sp2 /\ ~ (sp <= x < sp + size))); [exact Hz3| |intros x Hx; exact Hx| |].
        + intros x (Hx1 & Hx2). apply Ho3. lia.
        + intros x Hx. apply Ho3. lia.
        + destruct HM1 as [_ (B1 & B2) _ _ B3]. eapply (laid_frame (smem st1) _ (fun x => x < sp1 /\ ~ (sp <= x < sp + size))); [exact B1| | | |exact Hr].
          * intros x (Hx1 & _). apply B2. lia.
          * intros x (Hx1 & Hx2). split; [lia|exact Hx2].
          * intros x Hx. apply B2. lia.
      - cbn [laid]. split; [|exact I]. exists (blank (s_t s) ws). split; [|exact Hw3]. apply blank_rep.
        eapply rep_frame; [exact Hz3| | |apply HG].
        + intros x (Hx1 & Hx2 & Hx3). apply Ho3. lia.
        + intros x (Hx1 & Hx2 & Hx3). split; [exact Hx1|exact Hx3]. }
    assert (Hsz1 : sizes (ts ++ [s_t s]) = sizes ts + get_type_size (s_t s)) by (rewrite sizes_app; cbn [sizes fold_right]; lia).
    rewrite <- Hsz1 in Eb.
    eapply (IH l4 (ts ++ [s_t s]) (vs ++ [v]) cr l5 Eb H2 X4' (lext_live _ _ _ X4 Ho) HL ltac:(lia) ls3 (with_mem st2 m3) sp2 (n1 + s_fr s) HM3 ltac:(lia) ltac:(lia)).
    + rewrite (lkeep_get _ _ _ _ HK3 (lext_live _ _ _ Xc Ho)). exact Hol2.
    + destruct HM1 as [B0 (B1 & B2) B4 B5 B3]. eapply ctx_move; [exact HC1|exact X4| | | | | |exact B4|exact B5|lia|lia].
      * eapply lkeep_trans; [exact Xc|exact B0|exact HK3].
      * cbn [smem with_mem]. congruence.
      * intros x (Hx1 & Hx2 & Hx3). cbn [smem with_mem]. destruct Ho3 as (_ & Ho3). rewrite Ho3 by lia. apply B2. lia.
      * intros x (Hx1 & Hx2). split; [lia|exact Hx2].
      * intros x Hx. split; [|lia]. eapply c_up; [exact HC|lia].
    + exact HLs.
    + apply Forall2_app; [exact Hty|]. constructor; [apply HG|constructor].
    + exact Hm2.
    + intros vs' ls4 st4 sp4 Ht4 Hr4 HM4 Hol4 Hsp4 Hf. rewrite <- !app_assoc in Hr4, Ht4. cbn [app] in Hr4, Ht4.
      apply (HW (v :: vs') ls4 st4 sp4); [exact Ht4|exact Hr4|rewrite Z.add_assoc; exact HM4|exact Hol4|lia|exact Hf].
Qed.

(** ** The whole call *)
Lemma contract_call_ok G c co f fo t ss :
  (exists v h n, c = PCon v h n) -> is_clarity_name f = true -> callable c f (map s_t ss) t -> ty_ok t -> storable t = true ->
  In (TPrin, CPrin c, co) L -> In (TAscii (Z.of_nat (length f)), CAscii f, fo) L -> Forall (sub_ok G) ss ->
  impl G t (sizes (map s_t ss) + sfr ss + call_stack_size t true true) (e_contract_call c co f fo (map s_t ss) t (map s_c ss))
    (fun r => bind (mapM (map (fun s => s_m s r) ss)) (call_other false net c f t)).
Proof.
  intros Hcon Hf Hca Hok Hst HinC HinF Hs. set (ts := map s_t ss) in *. pose proof (sizes_nonneg ts) as Pz. pose proof (sfr_nonneg (CH := ledger_chain) _ _ _ _ _ _ Hs) as Pf. pose proof (big_nonneg t Hok) as Pb.
  split; [lia|]. intros d B l code l' HC Hw. unfold e_contract_call in HC.
  destruct (add_local T32 l) as [o l1] eqn:Eo. destruct (store_args o 0 ts (map s_c ss) d B l1) as [ca l2] eqn:Ea.
  destruct (create_call_stack_local t true true l2) as [[[ro size] cc] l3] eqn:Ec.
  pose proof (f_equal fst HC) as HC1; pose proof (f_equal snd HC) as HC2; cbn [fst snd] in HC1, HC2; clear HC; subst code l'.
  assert (Hsize : size = call_stack_size t true true) by (unfold create_call_stack_local in Ec; destruct (add_local T32 l2); congruence).
  destruct (add_ok _ _ _ _ Eo Hw) as (X1 & Lo & No).
  pose proof (args_ext _ _ _ _ _ _ _ _ _ Ea Hs Lo (lext_wf _ _ X1)) as X2.
  destruct (reserve_run (CH := ledger_chain) E L X HX0 _ _ _ _ _ _ _ _ Ec (lext_wf _ _ X2)) as (X3 & Lr & Nr & Hres).
  assert (Y2 : lext l l2) by (eapply lext_trans; eauto). assert (Y3 : lext l l3) by (eapply lext_trans; eauto). split; [exact Y3|].
  intros F r js ls k st sp Q rs Hm HC HL HX HW. rewrite <- !app_assoc.
  pose proof (c_lo _ _ _ _ _ _ _ _ _ _ _ HC) as Hlo. pose proof (c_room _ _ _ _ _ _ _ _ _ _ _ HC) as Hrm. pose proof (c_cap _ _ _ _ _ _ _ _ _ _ _ HC) as Hcap. change (chain_cap (HS := gctx)) with (2 ^ 31 - 1) in Hcap.
  assert (N1 : (llen l1 <= length ls)%nat) by (apply lext_len in X2, X3; lia). assert (N2 : (llen l2 <= length ls)%nat) by (apply lext_len in X3; lia).
  set (SZ := sizes ts) in *. cbn [app name_code]. do 6 apply wp_const.
  (* the space of the arguments *)
  eapply wp_gget; [eapply c_sp; exact HC|]. apply wp_ltee. apply wp_const. rewrite (Z.mod_small SZ) by lia.
  eapply wp_b32; [cbn [ibin]; rewrite Z.mod_small by lia; reflexivity|]. apply wp_gset.
  set (ls1 := lset ls o (VI32 sp)). set (st1 := with_glob st (gset (sglob st) "stack-pointer" (VI32 (sp + SZ)))).
  assert (HM1 : moved l ls st sp SZ ls1 st1 (sp + SZ)).
  { constructor; [apply lkeep_lset; exact No|apply LangBase.below_refl| | |lia].
    - cbn [st1 sglob with_glob]. eapply gget_set. eapply c_sp; exact HC.
    - intros g Hg. cbn [st1 sglob with_glob]. apply gget_set_other. exact Hg. }
  assert (Ho1 : nth_error ls1 o = Some (VI32 sp)) by (apply lset_same; destruct Lo; lia).
  assert (HC1 : ctx G B r (minus F sp SZ) l1 ls1 st1 (sp + SZ) (sfr ss)).
  { eapply ctx_minus; [exact HC|exact X1|exact HM1|lia|lia]. }
  assert (HLA : laid (smem st1) (fun x => x < sp + SZ /\ ~ (sp <= x < sp + SZ)) [] [] sp) by exact I.
  eapply (args_run G B r F l ls st sp _ d Q rs _ o SZ HC HX No Pz ltac:(lia) ss l1 [] [] ca l2 Ea Hs X1 Lo N2 ltac:(unfold SZ, ts; cbn [sizes fold_right]; lia) ls1 st1 (sp + SZ) SZ HM1 ltac:(lia) ltac:(lia) Ho1 HC1 HLA (Forall2_nil _)).
  { exact Hm. }
  intros vs ls2 st2 sp2 Hty Hlaid HM2 Ho2 Hsp2 Hrs. cbn [app] in Hty, Hlaid.
  eapply wp_lget; [exact Ho2|]. apply wp_const.
  assert (HC2 : ctx G B r F l2 ls2 st2 sp2 (call_stack_size t true true)) by (eapply ctx_moved; [exact HC|exact Y2|exact HM2|lia]).
  assert (Hl2 : length ls2 = length ls) by (eapply lkeep_len, m_ls; exact HM2).
  pose proof (ctx_msize (CH := ledger_chain) _ _ _ _ _ _ _ _ _ _ _ _ _ _ _ HC HM2) as Hms. pose proof (m_rng _ _ _ _ _ _ _ _ HM2) as Hr2.
  eapply Hres; [exact HC2|subst size; lia|lia|]. intros ls3 st3 Hh3 Hmem3 HM3 Ho3 HC3. subst size.
  cbn [app]. eapply wp_lget; [exact Ho3|]. apply wp_const.
  assert (HM4 : moved l ls st sp (SZ + sfr ss + call_stack_size t true true) ls3 st3 (sp2 + call_stack_size t true true)) by (eapply moved_trans; [exact Y2|exact HM2|exact HM3]).
  set (big := call_stack_size t true true) in *.
  eapply (call_gave E rt _ [VI32 0; VI32 0; VI32 co; VI32 (lit_len (CPrin c)); VI32 fo; VI32 (Z.of_nat (length f)); VI32 sp; VI32 SZ; VI32 sp2; VI32 (big mod m32)] t st3 sp2 rs ro l3);
    [|exact HX|exact HM4|lia|exact Y3|exact Ho3|lia|lia|unfold big; lia|eapply c_up; exact HC|exact HW].
  assert (HCn : ctx G B r F l3 ls3 st3 (sp2 + big) 0) by (eapply ctx_moved with (n' := 0); [exact HC|exact Y3|exact HM4|lia]).
  eapply contract_call_run with (P := fun x => x < sp2); try eassumption.
  - pose proof (c_lits _ _ _ _ _ _ _ _ _ _ _ HCn) as HLi. rewrite Forall_forall in HLi. apply HLi in HinC. destruct HinC as (Hpt & o' & Hw' & Q1 & Q2 & Q3 & _).
    assert (o' = co) by congruence. subst o'. split; [exact Hpt|]. split; [exact Q3|]. split; [rewrite Hmem3; lia|congruence].
  - eapply name_held; [exact HCn|exact HinF].
  - rewrite Hmem3. exact Hlaid.
  - fold SZ. rewrite Hmem3. lia.
  - rewrite Hmem3. lia.
  - lia.
  - fold big. rewrite Hmem3. lia.
  - rewrite <- Hh3 in Hrs. exact Hrs.
Qed.
End Call.
