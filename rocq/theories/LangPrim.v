(** * Correctness of emitted expression code: words served by the host (proof support)

    [host_ok]: the imported functions do what the class [chain] says.  Under it the
    code emitted for [var-get], [var-set], [map-get?], [map-set], [map-insert],
    [map-delete] and the [ft-*] words does what the evaluator says. *)
From Coq Require Import ZArith String List Bool Lia.
Import ListNotations.
From Verif Require Import ReadProofs Wasm Std StdEnv WasmLogic WasmTac Mem MemFacts Bytes Spec SpecBytes SpecUtf8 ArithProofs Clar Rep RepFacts WriteProofs Emit EmitFacts EmitProofs Equal EqualProofs
  CallProofs ArgProofs Ast SpecLang Lang Typing LangFacts LangBase LangCtl LangEarly LangMem LangSeq LangList LangConcat LangCall.
Open Scope string_scope.
Open Scope list_scope.
Open Scope Z_scope.

(** ** The imported functions *)
Section Host.
Context {HS : Type} {CH : chain HS} (E : env HS).

Definition called (f : string) (args : list val) (st : store HS) (R : result HS -> Prop) : Prop :=
  fun_arity E f = Some (length args) /\ wpf E f args st R.
(** the words of [v] are at [a] *)
Definition given (m : mem) (a : Z) (t : ty) (v : value) : Prop := exists P ws, rep m P t v ws /\ words_at m a ws.
Definition refusal (c : Z) (r : result HS) : Prop := c = err_host /\ exists st', r = RTrap THost st'.
(** the value is written at [ro] *)
Definition gave (st : store HS) (ro : Z) (t : ty) (rs : res HS value) (r : result HS) : Prop :=
  match rs with
  | Done v h => exists m' ws, r = RVals [] (mkstore m' (sglob st) h) /\ only_changes (smem st) m' ro (call_stack_size t true true) /\
      words_at m' ro ws /\ rep m' (seg ro (call_stack_size t true true)) t v ws /\ has_type t v
  | Abort c => refusal c r
  | Early _ _ => False
  end.
(** the value is left on the stack, followed by [extra] *)
Definition did (st : store HS) (t : ty) (extra : list val) (rs : res HS value) (r : result HS) : Prop :=
  match rs with
  | Done v h => exists ws, r = RVals ws (mkstore (smem st) (sglob st) h) /\ (forall m P, rep m P t v (ws ++ extra)) /\ has_type t v
  | Abort c => refusal c r
  | Early _ _ => False
  end.
(** the value is written at [ro] and its words are left on the stack *)
Definition handed (st : store HS) (ro : Z) (t : ty) (rs : res HS value) (r : result HS) : Prop :=
  match rs with
  | Done v h => exists m' ws, r = RVals ws (mkstore m' (sglob st) h) /\ only_changes (smem st) m' ro (call_stack_size t false true) /\
      rep m' (seg ro (call_stack_size t false true)) t v ws /\ has_type t v
  | Abort c => refusal c r
  | Early _ _ => False
  end.

Definition ft_fun (p : prim) : string :=
  match p with
  | PFtSupply _ _ => "stdlib.ft_get_supply"
  | PFtBalance _ _ => "stdlib.ft_get_balance"
  | PFtMint _ _ => "stdlib.ft_mint"
  | PFtBurn _ _ => "stdlib.ft_burn"
  | _ => "stdlib.ft_transfer"
  end.
Definition native_fun (p : prim) : string := match p with PTxSender => "stdlib.tx_sender" | _ => "stdlib.contract_caller" end.
Definition prim_spec (p : prim) : Prop := forall vs (st : store HS) rs,
  chain_op p vs (shost st) = Some rs -> Forall2 has_type (prim_args p) vs -> (prim_named p = true -> holds (smem st) (prim_addr p) (prim_name p)) ->
  msize (smem st) < m32 -> msize (smem st) <= chain_cap (HS := HS) ->
  let nm := [VI32 (prim_addr p); VI32 (Z.of_nat (length (prim_name p)))] in
  let sz t := VI32 (get_type_size t mod m32) in
  let big t := call_stack_size t true true in
  let room t ro := 0 <= ro /\ 0 <= big t /\ ro + big t <= msize (smem st) in
  match p, vs with
  | PVarGet _ _ t, [] => forall ro, room t ro -> called "stdlib.get_variable" (nm ++ [VI32 ro; VI32 (big t mod m32)]) st (gave st ro t rs)
  | PVarSet _ _ t, [v] => forall a, given (smem st) a t v -> called "stdlib.set_variable" (nm ++ [VI32 a; sz t]) st (did st TBool [VI32 1] rs)
  | PMapGet _ _ kt vt, [k] => forall a ro, given (smem st) a kt k -> room (TOpt vt) ro ->
      called "stdlib.map_get" (nm ++ [VI32 a; sz kt; VI32 ro; VI32 (big (TOpt vt) mod m32)]) st (gave st ro (TOpt vt) rs)
  | PMapSet _ _ kt vt, [k; v] => forall a b, given (smem st) a kt k -> given (smem st) b vt v ->
      called "stdlib.map_set" (nm ++ [VI32 a; sz kt; VI32 b; sz vt]) st (did st TBool [] rs)
  | PMapInsert _ _ kt vt, [k; v] => forall a b, given (smem st) a kt k -> given (smem st) b vt v ->
      called "stdlib.map_insert" (nm ++ [VI32 a; sz kt; VI32 b; sz vt]) st (did st TBool [] rs)
  | PMapDelete _ _ kt _, [k] => forall a, given (smem st) a kt k -> called "stdlib.map_delete" (nm ++ [VI32 a; sz kt]) st (did st TBool [] rs)
  | (PFtSupply _ _ | PFtBalance _ _ | PFtMint _ _ | PFtBurn _ _ | PFtTransfer _ _), _ => forall P ws, rep_list (smem st) P (prim_args p) vs ws ->
      called (ft_fun p) (nm ++ ws) st (did st (prim_ret p) [] rs)
  | (PTxSender | PContractCaller), [] => forall ro, 0 <= ro -> ro + call_stack_size TPrin false true <= msize (smem st) ->
      called (native_fun p) [VI32 ro; VI32 (call_stack_size TPrin false true mod m32)] st (handed st ro TPrin rs)
  | _, _ => True
  end.
Definition prim_types (p : prim) : Prop := Forall ty_ok (prim_ret p :: prim_args p) /\ Forall (fun t => storable t = true) (prim_ret p :: prim_args p).
Definition host_ok : Prop := (forall p, prim_types p -> prim_spec p) /\ scope_ok E.
End Host.

(** without such words there is nothing to require *)
Lemma no_host {HS} (E : env HS) : host_ok (CH := no_chain HS) E.
Proof. split; [intros p _ vs st rs H; discriminate|]. split; [intros s st h H; discriminate|intros s b st h H; discriminate]. Qed.

(** ** The emitted code *)
Section Prim.
Context {HS : Type} {CH : chain HS} (E : env HS) (rt : ty) (L : list (ty * value * Z)) (X : Z) (HX0 : 0 <= X).
Hypothesis Hhost : host_ok E.
Notation wp := (wp E).
Notation impl := (impl E rt L X).
Notation ctx := (ctx L X).
Notation sub_ok := (sub_ok E rt L X).
Notation impl_next1 := (impl_next1 E rt L X).
Notation impl_next := (impl_next E rt L X).
Notation impl_fr := (impl_fr E rt L X).
Notation impl_ext := (impl_ext E rt L X).
Ltac fr_of H := let P := fresh "P" in pose proof (impl_fr _ _ _ _ _ H) as P.
Ltac ext_of H E X := let W := fresh in
  match type of E with ?c ?d ?B ?l = _ =>
    assert (W : lwf l) by (assumption || (eapply lext_wf; eassumption));
    pose proof (impl_ext _ _ _ _ _ _ _ _ _ _ H E W) as X; clear W end.
Ltac lenl := repeat match goal with H : lext _ _ |- _ => apply lext_len in H | H : moved _ _ _ _ _ _ _ _ |- _ => apply m_ls, lkeep_len in H end; lia.

(** a value written to the call stack, below [sp] *)
Definition stashed (m : mem) (sp a : Z) (t : ty) (v : value) : Prop :=
  a + get_type_size t <= sp /\ exists ws, rep m (fun x => x < sp) t v ws /\ words_at m a ws.
Lemma stashed_given m sp a t v : stashed m sp a t v -> given m a t v.
Proof. intros (_ & ws & H1 & H2). exists (fun x => x < sp), ws. auto. Qed.
Lemma stashed_moved l ls (st : store HS) sp n ls' st' sp' a t v : moved l ls st sp n ls' st' sp' -> stashed (smem st) sp a t v -> stashed (smem st') sp' a t v.
Proof.
  intros [M1 (M2 & M3) M4 M5 M6] (H1 & ws & H2 & H3). split; [lia|]. exists ws. split.
  - eapply rep_frame; [exact M2| | |exact H2]; cbv beta; intros x Hx; [apply M3; lia|lia].
  - pose proof (rep_words_len _ _ _ _ _ H2) as HLw. destruct H3 as (A1 & A2 & A3). split; [exact A1|]. split; [rewrite M2; exact A2|].
    etransitivity; [|exact A3]. apply bytes_at_ext. intros x Hx. apply M3. lia.
Qed.

Lemma stash_run t loc a fr m G : impl G t fr a m -> 0 <= get_type_size t ->
  forall d B l cs l', e_stash t loc a d B l = (cs, l') -> lwf l -> lext l l' /\
  forall A F r l0 ls0 (st0 : store HS) sp0 n n1 ls st sp (f : value -> M HS A) js k Q rs,
    ctx G B r F l0 ls0 st0 sp0 n -> moved l0 ls0 st0 sp0 n1 ls st sp -> lext l0 l -> n1 + (get_type_size t + fr) <= n ->
    bind (m r) f (shost st) = Some rs -> exits rt d F l0 ls0 st0 sp0 n Q rs -> (llen l' <= length ls0)%nat ->
    (forall v a ls2 st2 sp2, has_type t v -> stashed (smem st2) sp2 a t v ->
       moved l0 ls0 st0 sp0 (n1 + (get_type_size t + fr)) ls2 st2 sp2 -> moved l ls st sp (get_type_size t + fr) ls2 st2 sp2 -> f v (shost st2) = Some rs ->
       wp js (mkcfg ls2 (VI32 (get_type_size t mod m32) :: VI32 a :: k) st2) Q) ->
    wp (cs ++ js) (mkcfg ls k st) Q.
Proof.
  intros HA Hsz d B l cs l' H Hw. unfold e_stash in H. fr_of HA.
  destruct (create_call_stack_local t true false l) as [[[o size] cc] l1] eqn:Ec.
  destruct (if loc then add_local T32 l1 else (o, l1)) as [sl l2] eqn:El.
  destruct (a d B l2) as [ca l3] eqn:Ea. destruct (write_to_memory t o 0 l3) as [cw l4] eqn:Ew.
  pose proof (f_equal fst H) as H1; pose proof (f_equal snd H) as H2; cbn [fst snd] in H1, H2; clear H; subst cs l'.
  assert (Hs : size = get_type_size t) by (unfold create_call_stack_local in Ec; destruct (add_local T32 l); cbn [call_stack_size] in Ec; congruence).
  destruct (reserve_run E L X HX0 _ _ _ _ _ _ _ _ Ec Hw) as (Xc & Lo & No & Hres).
  assert (XL : lext l1 l2 /\ (loc = true -> live l2 sl /\ ~ live l1 sl)).
  { destruct loc; [destruct (add_ok _ _ _ _ El (lext_wf _ _ Xc)) as (Y1 & Y2 & Y3); auto|]. injection El as <- <-. split; [apply lext_refl; eapply lext_wf; eauto|discriminate]. }
  destruct XL as (X12 & Hsl). ext_of HA Ea X23. pose proof (lext_live _ _ _ X12 Lo) as Lo2. pose proof (lext_live _ _ _ X23 Lo2) as Lo3.
  destruct (write_memory_ok E t _ _ _ _ _ Ew (lext_wf _ _ X23) Lo3) as (X34 & Hwr).
  assert (Y2 : lext l l2) by (eapply lext_trans; eauto). assert (Y3 : lext l l3) by (eapply lext_trans; eauto). assert (Y4 : lext l l4) by (eapply lext_trans; eauto).
  split; [exact Y4|]. intros A F r l0 ls0 st0 sp0 n n1 ls st sp f js k Q rs HC HM X0 Hn Hf HX HL HW.
  pose proof (lkeep_len _ _ _ (m_ls _ _ _ _ _ _ _ _ HM)) as Hlen.
  assert (N1 : (llen l1 <= length ls)%nat) by (apply lext_len in X12, X23, X34; lia).
  assert (N3 : (llen l3 <= length ls0)%nat) by (apply lext_len in X34; lia).
  pose proof (c_lo _ _ _ _ _ _ _ _ _ _ _ HC) as Hlo. pose proof (c_room _ _ _ _ _ _ _ _ _ _ _ HC) as Hrm. pose proof (m_rng _ _ _ _ _ _ _ _ HM) as Hrg.
  assert (HC1 : ctx G B r F l ls st sp (get_type_size t + fr)) by (eapply ctx_moved; [exact HC|exact X0|exact HM|exact Hn]).
  rewrite <- !app_assoc. eapply Hres; [exact HC1|subst size; lia|exact N1|]. intros ls1 st1 Hh Hmem HM1 Ho HC2. subst size.
  set (ls1' := if loc then lset ls1 sl (VI32 (get_type_size t mod m32)) else ls1).
  assert (K1 : lkeep l1 ls1 ls1') by (unfold ls1'; destruct loc; [apply lkeep_lset, Hsl; reflexivity|apply lkeep_refl]).
  assert (Hsl1 : loc = true -> nth_error ls1' sl = Some (VI32 (get_type_size t mod m32))).
  { intros ->. unfold ls1'. apply lset_same. destruct (Hsl eq_refl) as ((Q1 & _) & _). pose proof (lkeep_len _ _ _ (m_ls _ _ _ _ _ _ _ _ HM1)).
    apply lext_len in X23, X34. lia. }
  assert (HM1' : moved l ls st sp (get_type_size t) ls1' st1 (sp + get_type_size t)) by (eapply moved_ls'; [exact HM1|exact Xc|exact K1]).
  assert (HM2 : moved l0 ls0 st0 sp0 (n1 + get_type_size t) ls1' st1 (sp + get_type_size t)) by (eapply moved_trans; [exact X0|exact HM|exact HM1']).
  assert (HC3 : ctx G B r (minus F sp (get_type_size t)) l2 ls1' st1 (sp + get_type_size t) fr).
  { eapply ctx_minus; [exact HC1|exact Y2|exact HM1'|lia|lia]. }
  assert (GOAL : wp (ca ++ cw ++ [LGet o; if loc then LGet sl else Const (VI32 (get_type_size t mod m32))] ++ js) (mkcfg ls1' k st1) Q).
  { rewrite <- Hh in Hf. assert (Hn' : n1 + get_type_size t + fr <= n) by lia.
    eapply (impl_next1 _ _ _ _ _ _ _ _ _ _ HA Ea F (minus F sp (get_type_size t))); [exact HM2|exact Hn'|eapply lext_trans; eauto|apply minus_sub|exact HC3|exact Hf|exact HX|exact N3|].
    intros v h ls2 st2 sp2 ws HG HM3 Hf3 HLw. pose proof (g_moved _ _ _ _ _ _ _ _ _ _ _ _ _ HG) as HMa.
    pose proof (m_rng _ _ _ _ _ _ _ _ HMa) as Hrg2. pose proof (ctx_msize L X _ _ _ _ _ _ _ _ _ _ _ _ _ HC HM3) as Hms.
    assert (Ho2 : nth_error ls2 o = Some (VI32 sp)).
    { rewrite (lkeep_get _ _ _ _ (m_ls _ _ _ _ _ _ _ _ HMa) Lo2), (lkeep_get _ _ _ _ K1 Lo). exact Ho. }
    assert (Hl2 : length ls2 = length ls0) by (eapply lkeep_len, m_ls; exact HM3).
    eapply Hwr; [exact Ho2|lia|eapply rep_typed; apply HG|lia|lia|lia|]. intros ls3 m3 K3 O3 W3. rewrite Z.add_0_r in *.
    assert (HM4 : moved l0 ls0 st0 sp0 (n1 + (get_type_size t + fr)) ls3 (with_mem st2 m3) sp2).
    { rewrite Z.add_assoc. eapply moved_write; [|exact O3|lia]. eapply moved_ls'; [exact HM3| |exact K3]. eapply lext_trans; eauto. }
    assert (HM5 : moved l ls st sp (get_type_size t + fr) ls3 (with_mem st2 m3) sp2).
    { eapply moved_write; [|exact O3|lia]. eapply moved_ls'; [eapply moved_trans; [exact Y2|exact HM1'|exact HMa]|exact Y3|exact K3]. }
    assert (Ho3 : nth_error ls3 o = Some (VI32 sp)) by (rewrite (lkeep_get _ _ _ _ K3 Lo3); exact Ho2).
    cbn [app]. eapply wp_lget; [exact Ho3|].
    assert (HP : stashed (smem (with_mem st2 m3)) sp2 sp t v).
    { split; [lia|]. exists (blank t ws). split; [|exact W3]. apply blank_rep. cbn [smem with_mem].
      eapply rep_frame; [apply O3| | |exact (g_rep _ _ _ _ _ _ _ _ _ _ _ _ _ HG)].
      - intros x (Hx & _ & Hx2). apply O3. lia.
      - intros x (Hx & _). exact Hx. }
    destruct loc.
    - eapply wp_lget.
      { destruct (Hsl eq_refl) as (Ls & _). rewrite (lkeep_get _ _ _ _ K3 (lext_live _ _ _ X23 Ls)), (lkeep_get _ _ _ _ (m_ls _ _ _ _ _ _ _ _ HMa) Ls). exact (Hsl1 eq_refl). }
      eapply HW; [apply HG|exact HP|exact HM4|exact HM5|exact Hf3].
    - apply wp_const. eapply HW; [apply HG|exact HP|exact HM4|exact HM5|exact Hf3]. }
  unfold ls1' in GOAL. destruct loc; [|exact GOAL]. cbn [app]. apply wp_const, wp_lset. exact GOAL.
Qed.

(** ** The call *)
Lemma call_did f args (st : store HS) t extra rs l0 ls0 st0 sp0 n d F js ls k Q sp n1 :
  called E f args st (did st t extra rs) -> exits rt d F l0 ls0 st0 sp0 n Q rs -> moved l0 ls0 st0 sp0 n1 ls st sp -> n1 <= n ->
  (forall v h ls' st' sp' ws, rs = Done v h -> gives F t v h l0 ls0 st0 sp0 n ls' st' sp' ws -> wp js (mkcfg ls' (rev ws ++ k) st') Q) ->
  wp (Call f :: map (fun w => Const w) extra ++ js) (mkcfg ls (rev args ++ k) st) Q.
Proof.
  intros (Ha & Hw) HX HM Hn HW. eapply wp_call_all; [exact Ha|reflexivity|]. eapply wpf_mono; [exact Hw|]. intros r Hr. unfold qcall.
  destruct rs as [v h|v h|c]; cbn [did] in Hr; [|contradiction|].
  - destruct Hr as (ws & -> & Hrep & Hty). cbn [ret_call cont].
    assert (GO : forall ex ws0, ws0 ++ ex = ws ++ extra -> wp (map (fun w => Const w) ex ++ js) (mkcfg ls (rev ws0 ++ k) (mkstore (smem st) (sglob st) h)) Q).
    { induction ex as [|w ex IH]; intros ws0 He; cbn [map app].
      - rewrite app_nil_r in He. subst ws0. apply (HW v h ls (mkstore (smem st) (sglob st) h) sp (ws ++ extra) eq_refl).
        constructor; [|apply Hrep|exact Hty|reflexivity]. destruct HM as [M1 M2 M3 M4 M5]. constructor; auto. lia.
      - apply wp_const. specialize (IH (ws0 ++ [w])). rewrite rev_app_distr in IH. apply IH. rewrite <- app_assoc. exact He. }
    apply GO. reflexivity.
  - destruct Hr as (-> & st' & ->). cbn [ret_call cont exits] in *. exact (proj2 HX eq_refl _).
Qed.

(** reserve the space, let the host write there, read the words back *)
Lemma call_gave f args t (st : store HS) ro rs o l1 l0 ls0 st0 sp0 n d (F : Z -> Prop) js ls k Q sp n1 :
  called E f args st (gave st ro t rs) -> exits rt d F l0 ls0 st0 sp0 n Q rs -> moved l0 ls0 st0 sp0 n1 ls st sp -> n1 <= n -> lext l0 l1 -> nth_error ls o = Some (VI32 ro) ->
  sp0 <= ro -> 0 <= ro -> ro + call_stack_size t true true <= sp -> (forall a, sp0 <= a -> F a) ->
  (forall v h ls' st' sp' ws, rs = Done v h -> gives F t v h l0 ls0 st0 sp0 n ls' st' sp' ws -> wp js (mkcfg ls' (rev ws ++ k) st') Q) ->
  wp (Call f :: read_from_memory t o 0 ++ js) (mkcfg ls (rev args ++ k) st) Q.
Proof.
  intros (Ha & Hw) HX HM Hn Hx Ho Hs Hro Hsz HF HW. eapply wp_call_all; [exact Ha|reflexivity|]. eapply wpf_mono; [exact Hw|]. intros r Hr. unfold qcall.
  destruct rs as [v h|v h|c]; cbn [gave] in Hr; [|contradiction|].
  - destruct Hr as (m' & ws & -> & Ho' & Hw' & Hrep & Hty). cbn [ret_call cont].
    eapply (read_memory_ok E t _ _ _ _ _ _ _ _ _ Ho); [eapply rep_typed; exact Hrep|rewrite Z.add_0_r; exact Hw'|].
    apply (HW v h ls (mkstore m' (sglob st) h) sp (blank t ws) eq_refl).
    constructor; [|apply blank_rep; eapply rep_weaken; [|exact Hrep]|exact Hty|reflexivity].
    + pose proof (moved_write _ _ _ _ _ _ _ _ _ _ _ HM Ho' Hs) as [M1 M2 M3 M4 M5]. constructor; auto. lia.
    + intros x Hx'. unfold seg in Hx'. split; [lia|]. apply HF. lia.
  - destruct Hr as (-> & st' & ->). cbn [ret_call cont exits] in *. exact (proj2 HX eq_refl _).
Qed.

(** ** The words *)
Lemma name_held G B r F l ls (st : store HS) sp n nm o : ctx G B r F l ls st sp n -> In (TAscii (Z.of_nat (length nm)), CAscii nm, o) L -> holds (smem st) o nm.
Proof.
  intros HC Hin. pose proof (c_lits _ _ _ _ _ _ _ _ _ _ _ HC) as HL. rewrite Forall_forall in HL. apply HL in Hin. destruct Hin as (_ & o' & H & H1 & H2 & H3 & _).
  cbn [lit_len] in H. assert (o' = o) by congruence. subst o'. exact H3.
Qed.
Lemma big_nonneg t : ty_ok t -> 0 <= call_stack_size t true true.
Proof. intros H. cbn [call_stack_size]. pose proof (inmem_nonneg t true H). pose proof (words_size_nonneg (clar2wasm_ty t)) as K. rewrite words_size_ty in K. lia. Qed.
Lemma size_nonneg t : 0 <= get_type_size t.
Proof. pose proof (words_size_nonneg (clar2wasm_ty t)) as K. rewrite words_size_ty in K. exact K. Qed.

Lemma var_get_ok G n o t : prim_types (PVarGet n o t) -> In (TAscii (Z.of_nat (length n)), CAscii n, o) L ->
  impl G t (call_stack_size t true true) (e_var_get n o t) (fun r => chain_op (PVarGet n o t) []).
Proof.
  intros HT Hin. pose proof (proj1 Hhost _ HT) as HS0. destruct HT as (HT & _). inversion HT as [|? ? HT1 _]; subst. pose proof (big_nonneg t HT1) as Hb. split; [exact Hb|].
  intros d B l code l' HC Hw. unfold e_var_get in HC. destruct (create_call_stack_local t true true l) as [[[ol size] cc] l1] eqn:Ec.
  pose proof (f_equal fst HC) as HC1; pose proof (f_equal snd HC) as HC2; cbn [fst snd] in HC1, HC2; clear HC; subst code l'.
  assert (Hs : size = call_stack_size t true true) by (unfold create_call_stack_local in Ec; destruct (add_local T32 l); congruence).
  destruct (reserve_run E L X HX0 _ _ _ _ _ _ _ _ Ec Hw) as (Xc & Lo & No & Hres). split; [exact Xc|].
  intros F r js ls k st sp Q rs Hm HC HL HX HW. rewrite <- !app_assoc.
  pose proof (c_lo _ _ _ _ _ _ _ _ _ _ _ HC) as Hlo. pose proof (c_room _ _ _ _ _ _ _ _ _ _ _ HC) as Hrm. pose proof (c_cap _ _ _ _ _ _ _ _ _ _ _ HC) as Hcap.
  eapply Hres; [exact HC|subst size; lia|exact HL|]. intros ls1 st1 Hh Hmem HM1 Ho HC2. subst size. cbn [app name_code].
  apply wp_const, wp_const. eapply wp_lget; [exact Ho|]. apply wp_const.
  eapply (call_gave _ [VI32 o; VI32 (Z.of_nat (length n)); VI32 sp; VI32 (call_stack_size t true true mod m32)] t st1 sp rs ol l1);
    [|exact HX|exact HM1|lia|exact Xc|exact Ho|lia|lia|lia|eapply c_up; exact HC|exact HW].
  rewrite <- Hh in Hm. apply (HS0 [] st1 rs Hm); [constructor|intros _; eapply name_held; eauto|rewrite Hmem; lia|rewrite Hmem; exact Hcap|rewrite Hmem; lia].
Qed.

Lemma var_set_ok G n o t fr a m : prim_types (PVarSet n o t) -> In (TAscii (Z.of_nat (length n)), CAscii n, o) L -> impl G t fr a m ->
  impl G TBool (get_type_size t + fr) (e_var_set n o t a) (fun r => bind (m r) (fun v => chain_op (PVarSet n o t) [v])).
Proof.
  intros HT Hin HA. pose proof (proj1 Hhost _ HT) as HS0. fr_of HA. pose proof (size_nonneg t) as Hb. split; [lia|].
  intros d B l code l' HC Hw. unfold e_var_set in HC. destruct (a d B l) as [ca l1] eqn:Ea. ext_of HA Ea Xa.
  destruct (create_call_stack_local t true false l1) as [[[ol size] cc] l2] eqn:Ec. destruct (write_to_memory t ol 0 l2) as [cw l3] eqn:Ew.
  pose proof (f_equal fst HC) as HC1; pose proof (f_equal snd HC) as HC2; cbn [fst snd] in HC1, HC2; clear HC; subst code l'.
  assert (Hs : size = get_type_size t) by (unfold create_call_stack_local in Ec; destruct (add_local T32 l1); cbn [call_stack_size] in Ec; congruence).
  destruct (reserve_run E L X HX0 _ _ _ _ _ _ _ _ Ec (lext_wf _ _ Xa)) as (Xc & Lo & No & Hres).
  destruct (write_memory_ok E t _ _ _ _ _ Ew (lext_wf _ _ Xc) Lo) as (Xw & Hwr).
  assert (Y2 : lext l l2) by (eapply lext_trans; eauto). assert (Y3 : lext l l3) by (eapply lext_trans; eauto). split; [exact Y3|].
  intros F r js ls k st sp Q rs Hm HC HL HX HW. rewrite <- !app_assoc.
  assert (N1 : (llen l1 <= length ls)%nat) by (apply lext_len in Xc, Xw; lia). assert (N2 : (llen l2 <= length ls)%nat) by (apply lext_len in Xw; lia).
  pose proof (c_lo _ _ _ _ _ _ _ _ _ _ _ HC) as Hlo. pose proof (c_room _ _ _ _ _ _ _ _ _ _ _ HC) as Hrm. pose proof (c_cap _ _ _ _ _ _ _ _ _ _ _ HC) as Hcap.
  pose proof (name_held _ _ _ _ _ _ _ _ _ _ _ HC Hin) as Hnm.
  assert (HM0 : moved l ls st sp 0 ls st sp) by (eapply moved_refl; exact HC).
  assert (G0 : 0 + fr <= get_type_size t + fr) by lia.
  eapply (impl_next _ _ _ _ _ _ _ _ _ _ HA Ea); [exact HC|exact HM0|exact G0|apply lext_refl; exact Hw|eapply ctx_less; [exact HC|lia]|exact Hm|exact HX|exact N1|].
  intros v h ls1 st1 sp1 ws HG HM1 Hf HLw. rewrite Z.add_0_l in HM1.
  assert (HC1 : ctx G B r F l1 ls1 st1 sp1 (get_type_size t)) by (eapply ctx_moved; [exact HC|exact Xa|exact HM1|lia]).
  assert (Hl1 : length ls1 = length ls) by (eapply lkeep_len, m_ls; exact HM1).
  pose proof (ctx_msize L X _ _ _ _ _ _ _ _ _ _ _ _ _ HC HM1) as Hms. pose proof (m_rng _ _ _ _ _ _ _ _ HM1) as Hr1.
  eapply Hres; [exact HC1|subst size; lia|lia|]. intros ls2 st2 Hh Hmem HM2 Ho HC2. subst size.
  assert (Hl2 : length ls2 = length ls1) by (eapply lkeep_len, m_ls; exact HM2).
  eapply Hwr; [exact Ho|lia|eapply rep_typed; apply HG|lia|lia|rewrite Hmem, Hms; lia|]. intros ls3 m3 K3 O3 W3. rewrite Z.add_0_r in *.
  assert (HM3 : moved l ls st sp (fr + get_type_size t) ls3 (with_mem st2 m3) (sp1 + get_type_size t)).
  { eapply moved_write; [|exact O3|lia]. eapply moved_ls'; [eapply moved_trans; [exact Xa|exact HM1|exact HM2]|exact Y2|exact K3]. }
  assert (Ho3 : nth_error ls3 ol = Some (VI32 sp1)) by (rewrite (lkeep_get _ _ _ _ K3 Lo); exact Ho).
  cbn [app name_code]. apply wp_const, wp_const. eapply wp_lget; [exact Ho3|]. apply wp_const.
  change (Const (VI32 1) :: js) with (map (fun w => Const w) [VI32 1] ++ js).
  assert (Hms3 : msize (smem (with_mem st2 m3)) = msize (smem st)) by (destruct O3; cbn [smem with_mem]; congruence).
  eapply (call_did _ [VI32 o; VI32 (Z.of_nat (length n)); VI32 sp1; VI32 (get_type_size t mod m32)] _ TBool [VI32 1]); [|exact HX|exact HM3|lia|exact HW].
  apply (HS0 [v] (with_mem st2 m3) rs).
  - rewrite <- Hh in Hf. exact Hf.
  - constructor; [apply HG|constructor].
  - intros _. cbn [prim_addr prim_name]. eapply name_held; [|exact Hin]. eapply ctx_moved with (n' := 0); [exact HC|exact Y3|exact HM3|lia].
  - lia.
  - lia.
  - exists (fun x => x < sp1), (blank t ws). split; [|exact W3]. apply blank_rep. eapply rep_frame; [apply O3| | |rewrite Hmem; exact (g_rep _ _ _ _ _ _ _ _ _ _ _ _ _ HG)].
    + intros x (Hx & _). apply O3. lia.
    + intros x (Hx & _). exact Hx.
Qed.

Lemma map_get_ok G n o kt vt fr a m : prim_types (PMapGet n o kt vt) -> In (TAscii (Z.of_nat (length n)), CAscii n, o) L -> impl G kt fr a m ->
  impl G (TOpt vt) (get_type_size kt + call_stack_size (TOpt vt) true true + fr) (e_map_get n o kt vt a) (fun r => bind (m r) (fun v => chain_op (PMapGet n o kt vt) [v])).
Proof.
  intros HT Hin HA. pose proof (proj1 Hhost _ HT) as HS0. destruct HT as (HT & _). inversion HT as [|? ? HT1 _]; subst. pose proof (big_nonneg (TOpt vt) HT1) as Hb.
  fr_of HA. pose proof (size_nonneg kt) as Hk. split; [lia|].
  intros d B l code l' HC Hw. unfold e_map_get in HC. destruct (e_stash kt false a d B l) as [ck l1] eqn:Es.
  destruct (stash_run kt false a fr m G HA Hk _ _ _ _ _ Es Hw) as (Xs & Hst).
  destruct (create_call_stack_local (TOpt vt) true true l1) as [[[ol size] cc] l2] eqn:Ec. destruct (add_local T32 l2) as [sl l3] eqn:Ea.
  pose proof (f_equal fst HC) as HC1; pose proof (f_equal snd HC) as HC2; cbn [fst snd] in HC1, HC2; clear HC; subst code l'.
  assert (Hs : size = call_stack_size (TOpt vt) true true) by (unfold create_call_stack_local in Ec; destruct (add_local T32 l1); congruence).
  destruct (reserve_run E L X HX0 _ _ _ _ _ _ _ _ Ec (lext_wf _ _ Xs)) as (Xc & Lo & No & Hres). destruct (add_ok _ _ _ _ Ea (lext_wf _ _ Xc)) as (Xd & Ld & Nd).
  assert (Y2 : lext l l2) by (eapply lext_trans; eauto). assert (Y3 : lext l l3) by (eapply lext_trans; eauto). split; [exact Y3|].
  intros F r js ls k st sp Q rs Hm HC HL HX HW. rewrite <- !app_assoc.
  assert (N1 : (llen l1 <= length ls)%nat) by (apply lext_len in Xc, Xd; lia). assert (N2 : (llen l2 <= length ls)%nat) by (apply lext_len in Xd; lia).
  pose proof (c_lo _ _ _ _ _ _ _ _ _ _ _ HC) as Hlo. pose proof (c_room _ _ _ _ _ _ _ _ _ _ _ HC) as Hrm. pose proof (c_cap _ _ _ _ _ _ _ _ _ _ _ HC) as Hcap.
  assert (HM0 : moved l ls st sp 0 ls st sp) by (eapply moved_refl; exact HC).
  cbn [app name_code]. apply wp_const, wp_const.
  eapply Hst; [exact HC|exact HM0|apply lext_refl; exact Hw|lia|exact Hm|exact HX|exact N1|].
  intros v b ls1 st1 sp1 Hv Hput HM1 _ Hf. rewrite Z.add_0_l in HM1.
  set (BT := call_stack_size (TOpt vt) true true) in *.
  assert (HC1 : ctx G B r F l1 ls1 st1 sp1 BT) by (eapply ctx_moved; [exact HC|exact Xs|exact HM1|lia]).
  assert (Hl1 : length ls1 = length ls) by (eapply lkeep_len, m_ls; exact HM1).
  pose proof (ctx_msize L X _ _ _ _ _ _ _ _ _ _ _ _ _ HC HM1) as Hms. pose proof (m_rng _ _ _ _ _ _ _ _ HM1) as Hr1.
  eapply Hres; [exact HC1|subst size; lia|lia|]. intros ls2 st2 Hh Hmem HM2 Ho HC2. subst size.
  assert (Hl2 : length ls2 = length ls1) by (eapply lkeep_len, m_ls; exact HM2).
  cbn [app]. apply wp_const, wp_lset. set (ls3 := lset ls2 sl (VI32 (BT mod m32))).
  assert (K3 : lkeep l2 ls2 ls3) by (apply lkeep_lset; exact Nd).
  assert (Ho3 : nth_error ls3 ol = Some (VI32 sp1)) by (rewrite (lkeep_get _ _ _ _ K3 Lo); exact Ho).
  eapply wp_lget; [exact Ho3|]. eapply wp_lget; [apply lset_same; destruct Ld as (Ld & _); lia|].
  assert (HM3 : moved l ls st sp (get_type_size kt + fr + BT) ls3 st2 (sp1 + BT)).
  { eapply moved_ls'; [eapply moved_trans; [exact Xs|exact HM1|exact HM2]|exact Y2|exact K3]. }
  eapply (call_gave _ [VI32 o; VI32 (Z.of_nat (length n)); VI32 b; VI32 (get_type_size kt mod m32); VI32 sp1; VI32 (BT mod m32)] (TOpt vt) st2 sp1 rs ol l3);
    [|exact HX|exact HM3|lia|exact Y3|exact Ho3|lia|lia|unfold BT; lia|eapply c_up; exact HC|exact HW].
  apply (HS0 [v] st2 rs).
  - rewrite <- Hh in Hf. exact Hf.
  - constructor; [exact Hv|constructor].
  - intros _. cbn [prim_addr prim_name]. eapply name_held; [|exact Hin]. eapply ctx_moved with (n' := 0); [exact HC|exact Y3|exact HM3|lia].
  - rewrite Hmem; lia.
  - rewrite Hmem; lia.
  - rewrite Hmem. eapply stashed_given; exact Hput.
  - fold BT. rewrite Hmem. lia.
Qed.

Lemma map_put_ok G f n o kt vt fk fv a b ma mb p : prim_types p ->
  (f = "stdlib.map_set" /\ p = PMapSet n o kt vt \/ f = "stdlib.map_insert" /\ p = PMapInsert n o kt vt) ->
  In (TAscii (Z.of_nat (length n)), CAscii n, o) L -> impl G kt fk a ma -> impl G vt fv b mb ->
  impl G TBool (get_type_size kt + get_type_size vt + (fk + fv)) (e_map_put f n o kt vt a b)
    (fun r => bind (ma r) (fun k => bind (mb r) (fun v => chain_op p [k; v]))).
Proof.
  intros HT Hp Hin HA HB. pose proof (proj1 Hhost _ HT) as HS0. fr_of HA. fr_of HB. pose proof (size_nonneg kt) as Hk. pose proof (size_nonneg vt) as Hv. split; [lia|].
  intros d B l code l' HC Hw. unfold e_map_put in HC. destruct (e_stash kt false a d B l) as [ck l1] eqn:Es.
  destruct (stash_run kt false a fk ma G HA Hk _ _ _ _ _ Es Hw) as (Xs & Hst). destruct (e_stash vt true b d B l1) as [cv l2] eqn:Et.
  destruct (stash_run vt true b fv mb G HB Hv _ _ _ _ _ Et (lext_wf _ _ Xs)) as (Xt & Hst2).
  pose proof (f_equal fst HC) as HC1; pose proof (f_equal snd HC) as HC2; cbn [fst snd] in HC1, HC2; clear HC; subst code l'.
  assert (Y2 : lext l l2) by (eapply lext_trans; eauto). split; [exact Y2|].
  intros F r js ls k st sp Q rs Hm HC HL HX HW. rewrite <- !app_assoc.
  assert (N1 : (llen l1 <= length ls)%nat) by (apply lext_len in Xt; lia).
  pose proof (c_lo _ _ _ _ _ _ _ _ _ _ _ HC) as Hlo. pose proof (c_room _ _ _ _ _ _ _ _ _ _ _ HC) as Hrm. pose proof (c_cap _ _ _ _ _ _ _ _ _ _ _ HC) as Hcap.
  assert (HM0 : moved l ls st sp 0 ls st sp) by (eapply moved_refl; exact HC).
  cbn [app name_code]. apply wp_const, wp_const.
  eapply Hst; [exact HC|exact HM0|apply lext_refl; exact Hw|lia|exact Hm|exact HX|exact N1|].
  intros kv ka ls1 st1 sp1 Hkv Hput HM1 _ Hf. rewrite Z.add_0_l in HM1. cbv beta in Hf.
  eapply Hst2; [exact HC|exact HM1|exact Xs|lia|exact Hf|exact HX|exact HL|].
  intros vv va ls2 st2 sp2 Hvv Hput2 HM2 HM2' Hf2. pose proof (stashed_moved _ _ _ _ _ _ _ _ _ _ _ HM2' Hput) as Hput'.
  pose proof (ctx_msize L X _ _ _ _ _ _ _ _ _ _ _ _ _ HC HM2) as Hms.
  assert (Hnm : holds (smem st2) o n) by (eapply name_held; [|exact Hin]; eapply ctx_moved with (n' := 0); [exact HC|exact Y2|exact HM2|lia]).
  apply stashed_given in Hput2, Hput'. assert (Hty : Forall2 has_type [kt; vt] [kv; vv]) by (constructor; [exact Hkv|constructor; [exact Hvv|constructor]]).
  cbn [app]. change (Call f :: js) with (Call f :: map (fun w => Const w) [] ++ js).
  eapply (call_did f [VI32 o; VI32 (Z.of_nat (length n)); VI32 ka; VI32 (get_type_size kt mod m32); VI32 va; VI32 (get_type_size vt mod m32)] st2 TBool []); [|exact HX|exact HM2|lia|exact HW].
  destruct Hp as [(-> & ->)|(-> & ->)]; (apply (HS0 [kv; vv] st2 rs Hf2 Hty (fun _ => Hnm)); [lia|lia|exact Hput'|exact Hput2]).
Qed.

Lemma map_delete_ok G n o kt vt fr a m : prim_types (PMapDelete n o kt vt) -> In (TAscii (Z.of_nat (length n)), CAscii n, o) L -> impl G kt fr a m ->
  impl G TBool (get_type_size kt + fr) (e_map_delete n o kt a) (fun r => bind (m r) (fun v => chain_op (PMapDelete n o kt vt) [v])).
Proof.
  intros HT Hin HA. pose proof (proj1 Hhost _ HT) as HS0. fr_of HA. pose proof (size_nonneg kt) as Hk. split; [lia|].
  intros d B l code l' HC Hw. unfold e_map_delete in HC. destruct (e_stash kt true a d B l) as [ck l1] eqn:Es.
  destruct (stash_run kt true a fr m G HA Hk _ _ _ _ _ Es Hw) as (Xs & Hst).
  pose proof (f_equal fst HC) as HC1; pose proof (f_equal snd HC) as HC2; cbn [fst snd] in HC1, HC2; clear HC; subst code l'. split; [exact Xs|].
  intros F r js ls k st sp Q rs Hm HC HL HX HW. rewrite <- !app_assoc.
  pose proof (c_lo _ _ _ _ _ _ _ _ _ _ _ HC) as Hlo. pose proof (c_room _ _ _ _ _ _ _ _ _ _ _ HC) as Hrm. pose proof (c_cap _ _ _ _ _ _ _ _ _ _ _ HC) as Hcap.
  assert (HM0 : moved l ls st sp 0 ls st sp) by (eapply moved_refl; exact HC).
  cbn [app name_code]. apply wp_const, wp_const.
  eapply Hst; [exact HC|exact HM0|apply lext_refl; exact Hw|lia|exact Hm|exact HX|exact HL|].
  intros kv ka ls1 st1 sp1 Hkv Hput HM1 _ Hf. rewrite Z.add_0_l in HM1. cbv beta in Hf.
  pose proof (ctx_msize L X _ _ _ _ _ _ _ _ _ _ _ _ _ HC HM1) as Hms.
  assert (Hnm : holds (smem st1) o n) by (eapply name_held; [|exact Hin]; eapply ctx_moved with (n' := 0); [exact HC|exact Xs|exact HM1|lia]).
  apply stashed_given in Hput. cbn [app]. change (Call "stdlib.map_delete" :: js) with (Call "stdlib.map_delete" :: map (fun w => Const w) [] ++ js).
  eapply (call_did _ [VI32 o; VI32 (Z.of_nat (length n)); VI32 ka; VI32 (get_type_size kt mod m32)] st1 TBool []); [|exact HX|exact HM1|lia|exact HW].
  apply (HS0 [kv] st1 rs Hf); [constructor; [exact Hkv|constructor]|intros _; exact Hnm|lia|lia|exact Hput].
Qed.

Lemma token_ok G p ss : prim_types p -> In (TAscii (Z.of_nat (length (prim_name p))), CAscii (prim_name p), prim_addr p) L ->
  (match p with PFtSupply _ _ | PFtBalance _ _ | PFtMint _ _ | PFtBurn _ _ | PFtTransfer _ _ => True | _ => False end) ->
  Forall (sub_ok G) ss -> map (@s_t HS) ss = prim_args p ->
  impl G (prim_ret p) (sfr ss) (e_token (ft_fun p) (prim_name p) (prim_addr p) (map (@s_c HS) ss)) (fun r => bind (mapM (map (fun s => s_m s r) ss)) (fun vs => chain_op p vs)).
Proof.
  intros HT Hin Hp Hs Ht. pose proof (proj1 Hhost _ HT) as HS0. pose proof (sfr_nonneg _ _ _ _ _ _ Hs) as P2. split; [exact P2|].
  intros d B l code l' HC Hw. unfold e_token in HC. destruct (operands (map (@s_c HS) ss) d B l) as [c l1] eqn:Eo. pose proof (operands_ext E rt L X G ss _ _ _ _ _ Eo Hs Hw) as Xo.
  pose proof (f_equal fst HC) as HC1; pose proof (f_equal snd HC) as HC2; cbn [fst snd] in HC1, HC2; clear HC; subst code l'. split; [exact Xo|].
  intros F r js ls k st sp Q rs Hm HC HL HX HW. rewrite <- !app_assoc. cbn [app name_code]. apply wp_const, wp_const.
  pose proof (c_lo _ _ _ _ _ _ _ _ _ _ _ HC) as Hlo. pose proof (c_room _ _ _ _ _ _ _ _ _ _ _ HC) as Hrm. pose proof (c_cap _ _ _ _ _ _ _ _ _ _ _ HC) as Hcap.
  eapply (operands_run E rt L X G B r F l ls st sp _ d Q rs HC HX ss l c l1 Eo Hs (lext_refl _ Hw) HL ls st sp 0); [eapply moved_refl; eauto|lia|exact Hm|].
  intros vs ls1 st1 sp1 ws Hrl Hty _ HM Hf. rewrite Z.add_0_l in HM. rewrite Ht in Hrl, Hty.
  pose proof (ctx_msize L X _ _ _ _ _ _ _ _ _ _ _ _ _ HC HM) as Hms.
  assert (Hnm : holds (smem st1) (prim_addr p) (prim_name p)) by (eapply name_held; [|exact Hin]; eapply ctx_moved with (n' := 0); [exact HC|exact Xo|exact HM|lia]).
  replace (rev ws ++ VI32 (Z.of_nat (length (prim_name p))) :: VI32 (prim_addr p) :: k) with (rev ([VI32 (prim_addr p); VI32 (Z.of_nat (length (prim_name p)))] ++ ws) ++ k)
    by (rewrite rev_app_distr, <- app_assoc; reflexivity).
  change (Call (ft_fun p) :: js) with (Call (ft_fun p) :: map (fun w => Const w) [] ++ js).
  eapply (call_did _ _ st1 (prim_ret p) []); [|exact HX|exact HM|lia|exact HW].
  destruct p; try contradiction; (eapply (HS0 vs st1 rs Hf Hty (fun _ => Hnm)); [lia|lia|exact Hrl]).
Qed.

Lemma native_ok G p : prim_types p -> (match p with PTxSender | PContractCaller => True | _ => False end) ->
  impl G TPrin (call_stack_size TPrin false true) (e_native (native_fun p)) (fun r => chain_op p []).
Proof.
  intros HT Hp. pose proof (proj1 Hhost _ HT) as HS0. assert (Hb : 0 <= call_stack_size TPrin false true) by (vm_compute; discriminate). split; [exact Hb|].
  intros d B l code l' HC Hw. unfold e_native in HC. destruct (create_call_stack_local TPrin false true l) as [[[ol size] cc] l1] eqn:Ec.
  pose proof (f_equal fst HC) as HC1; pose proof (f_equal snd HC) as HC2; cbn [fst snd] in HC1, HC2; clear HC; subst code l'.
  assert (Hs : size = call_stack_size TPrin false true) by (unfold create_call_stack_local in Ec; destruct (add_local T32 l); congruence).
  destruct (reserve_run E L X HX0 _ _ _ _ _ _ _ _ Ec Hw) as (Xc & Lo & No & Hres). split; [exact Xc|].
  intros F r js ls k st sp Q rs Hm HC HL HX HW. rewrite <- !app_assoc.
  pose proof (c_lo _ _ _ _ _ _ _ _ _ _ _ HC) as Hlo. pose proof (c_room _ _ _ _ _ _ _ _ _ _ _ HC) as Hrm. pose proof (c_cap _ _ _ _ _ _ _ _ _ _ _ HC) as Hcap.
  eapply Hres; [exact HC|subst size; lia|exact HL|]. intros ls1 st1 Hh Hmem HM1 Ho HC2. subst size. set (sz := call_stack_size TPrin false true) in *. cbn [app].
  eapply wp_lget; [exact Ho|]. apply wp_const. rewrite <- Hh in Hm.
  assert (HS1 : called E (native_fun p) [VI32 sp; VI32 (sz mod m32)] st1 (handed st1 sp TPrin rs)).
  { specialize (HS0 [] st1 rs Hm). destruct p; try contradiction; (apply HS0; [constructor|discriminate|rewrite Hmem; lia|rewrite Hmem; exact Hcap|lia|rewrite Hmem; fold sz; lia]). }
  destruct HS1 as (Ha & Hf). change (VI32 (sz mod m32) :: VI32 sp :: k) with (rev [VI32 sp; VI32 (sz mod m32)] ++ k).
  eapply wp_call_all; [exact Ha|reflexivity|]. eapply wpf_mono; [exact Hf|]. intros res Hr. unfold qcall.
  destruct rs as [v h|v h|c]; cbn [handed] in Hr; [|contradiction|].
  - destruct Hr as (m' & ws & -> & Ho' & Hrep & Hty). cbn [ret_call cont]. fold sz in Ho', Hrep.
    apply (HW v h ls1 (mkstore m' (sglob st1) h) (sp + sz) ws eq_refl).
    constructor; [|eapply rep_weaken; [|exact Hrep]|exact Hty|reflexivity].
    + assert (Hsp : sp <= sp) by lia. pose proof (moved_write _ _ _ _ _ _ _ _ _ _ _ HM1 Ho' Hsp) as [M1 M2 M3 M4 M5]. constructor; auto.
    + intros x Hx'. unfold seg in Hx'. split; [lia|]. eapply c_up; [exact HC|lia].
  - destruct Hr as (-> & st' & ->). cbn [ret_call cont exits] in *. exact (proj2 HX eq_refl _).
Qed.

Theorem prim_ok G p ss : prim_types p -> incl (prim_lits p) L ->
  Forall (sub_ok G) ss -> map (@s_t HS) ss = prim_args p ->
  impl G (prim_ret p) (prim_frame p + sfr ss) (e_prim p (map (@s_c HS) ss)) (fun r => bind (mapM (map (fun s => s_m s r) ss)) (fun vs => chain_op p vs)).
Proof.
  intros HT Hin0 Hs Ht.
  assert (Hin : prim_named p = true -> In (TAscii (Z.of_nat (length (prim_name p))), CAscii (prim_name p), prim_addr p) L).
  { intros Hn. apply Hin0. unfold prim_lits. rewrite Hn. left. reflexivity. }
  clear Hin0. assert (M1 : forall (m : M HS value) (f : list value -> M HS value) h, bind (mapM [m]) f h = bind m (fun v => f [v]) h).
  { intros m f h. unfold mapM, bind, ret. destruct (m h) as [[? ?|? ?|?]|]; reflexivity. }
  assert (M2 : forall (m m' : M HS value) (f : list value -> M HS value) h, bind (mapM [m; m']) f h = bind m (fun v => bind m' (fun v' => f [v; v'])) h).
  { intros m m' f h. unfold mapM, bind, ret. destruct (m h) as [[? h1|? ?|?]|]; try reflexivity. destruct (m' h1) as [[? ?|? ?|?]|]; reflexivity. }
  destruct p; try (assert (NAT : ss = []) by (destruct ss; [reflexivity|discriminate]); subst ss; cbn [map sfr fold_right prim_frame prim_ret]; rewrite Z.add_0_r;
    eapply impl_ext_m; [apply (native_ok G _ HT I)|reflexivity]); specialize (Hin eq_refl); try (eapply impl_ext_m; [apply (token_ok G _ ss HT Hin I Hs Ht)|reflexivity]).
  - destruct ss as [|s [|]]; try discriminate. cbn [map sfr fold_right prim_frame prim_ret]. rewrite Z.add_0_r.
    eapply impl_ext_m; [apply var_get_ok; auto|reflexivity].
  - destruct ss as [|s [|]]; try discriminate. inversion Hs as [|? ? H1 _]; subst. cbn [map sfr fold_right prim_frame prim_ret e_prim fnth nth] in *. injection Ht as Ht.
    rewrite Z.add_0_r. unfold LangCtl.sub_ok in H1. rewrite Ht in H1. eapply impl_ext_m; [apply (var_set_ok G n o t _ _ _ HT Hin H1)|]. intros r h. rewrite M1. reflexivity.
  - destruct ss as [|s [|]]; try discriminate. inversion Hs as [|? ? H1 _]; subst. cbn [map sfr fold_right prim_frame prim_ret e_prim fnth nth] in *. injection Ht as Ht.
    rewrite Z.add_0_r. unfold LangCtl.sub_ok in H1. rewrite Ht in H1. eapply impl_ext_m; [apply (map_get_ok G n o kt vt _ _ _ HT Hin H1)|]. intros r h. rewrite M1. reflexivity.
  - destruct ss as [|s [|s' [|]]]; try discriminate. inversion Hs as [|? ? H1 H2]; subst. inversion H2 as [|? ? H3 _]; subst. cbn [map sfr fold_right prim_frame prim_ret e_prim fnth nth] in *. injection Ht as Ht Ht'.
    rewrite Z.add_0_r. unfold LangCtl.sub_ok in H1, H3. rewrite Ht in H1. rewrite Ht' in H3.
    eapply impl_ext_m; [apply (map_put_ok G _ n o kt vt _ _ _ _ _ _ _ HT (or_introl (conj eq_refl eq_refl)) Hin H1 H3)|]. intros r h. rewrite M2. reflexivity.
  - destruct ss as [|s [|s' [|]]]; try discriminate. inversion Hs as [|? ? H1 H2]; subst. inversion H2 as [|? ? H3 _]; subst. cbn [map sfr fold_right prim_frame prim_ret e_prim fnth nth] in *. injection Ht as Ht Ht'.
    rewrite Z.add_0_r. unfold LangCtl.sub_ok in H1, H3. rewrite Ht in H1. rewrite Ht' in H3.
    eapply impl_ext_m; [apply (map_put_ok G _ n o kt vt _ _ _ _ _ _ _ HT (or_intror (conj eq_refl eq_refl)) Hin H1 H3)|]. intros r h. rewrite M2. reflexivity.
  - destruct ss as [|s [|]]; try discriminate. inversion Hs as [|? ? H1 _]; subst. cbn [map sfr fold_right prim_frame prim_ret e_prim fnth nth] in *. injection Ht as Ht.
    rewrite Z.add_0_r. unfold LangCtl.sub_ok in H1. rewrite Ht in H1. eapply impl_ext_m; [apply (map_delete_ok G n o kt vt _ _ _ HT Hin H1)|]. intros r h. rewrite M1. reflexivity.
Qed.
End Prim.
