(** * C67: a constant reads back as the value it was defined with *)
From Coq Require Import ZArith String List Bool Lia.
Import ListNotations.
From Verif Require Import Wasm Std StdEnv WasmLogic WasmTac Spec Mem MemFacts Bytes Clar Codec Rep RepFacts ReadProofs CallProofs Emit EmitFacts EmitProofs WriteProofs
  Ledger PropLedger Ast SpecLang Lang LangEarly PropNft Const ConstProofs.
Open Scope string_scope.
Open Scope list_scope.
Open Scope Z_scope.

(** the module imports the two host functions *)
Definition const_imports (E : env consts) : Prop := forall f ps h, assoc f const_host = Some (ps, h) -> efun E f = None /\ ehost E f = Some (ps, h).

Lemma const_call E f ps h ls k args st Q js : const_imports E -> assoc f const_host = Some (ps, h) -> length args = length ps ->
  cont E js Q (ret_call ls k (h args st)) -> wp E (Call f :: js) (mkcfg ls (rev args ++ k) st) Q.
Proof.
  intros HI Hf Hl HW. destruct (HI _ _ _ Hf) as (H1 & H2). eapply (wp_call E f (length ps)).
  - unfold fun_arity. rewrite H1, H2. reflexivity.
  - cbn [cstack clocals cstore]. rewrite <- Hl, <- (rev_length args), firstn_app, firstn_all, Nat.sub_diag, skipn_app, skipn_all, Nat.sub_diag. cbn [firstn skipn app]. rewrite app_nil_r, rev_involutive.
    eapply calls_wpf; [|exact HW]. exists O. intros fu _. unfold invoke, call_func. rewrite H1, H2. reflexivity.
Qed.

(** ** Definition *)
(** Whatever the expression of the definition is: if its code leaves the words of a value [v]
    on the stack, the host's record of the constant afterwards is [v]. *)
Theorem C67_definition_records_value : forall E t v n no vo d B l (a : frag) ca l1 code l' ls k st ls1 st1 ws P,
  const_imports E -> ty_ok t -> has_type t v -> c_decl (shost st1) n = Some t ->
  a d B l = (ca, l1) -> runs E ca (mkcfg ls k st) (ONormal (mkcfg ls1 (rev ws ++ k) st1)) ->
  rep (smem st1) P t v ws -> (forall x, P x -> ~ (vo <= x < vo + get_type_size t)) ->
  name_at (smem st1) no (Z.of_nat (length n)) n -> (no + Z.of_nat (length n) <= vo \/ vo + get_type_size t <= no) ->
  0 <= vo -> vo + get_type_size t <= msize (smem st1) -> lwf l1 -> (llen l' <= length ls1)%nat ->
  e_define_constant n no vo t a d B l = (code, l') ->
  exists ls' m', runs E code (mkcfg ls k st) (ONormal (mkcfg ls' k (mkstore m' (sglob st1) (set_const (shost st1) n v)))).
Proof.
  intros E t v n no vo d B l a ca l1 code l' ls k st ls1 st1 ws P HI Hok Ht Hd Ha Hrun Hr HP Hn Hdis H0 H1 Hw1 Hlen HC.
  unfold e_define_constant in HC. rewrite Ha in HC. destruct (add_local T32 l1) as [ol l2] eqn:El. destruct (write_to_memory t ol 0 l2) as [cw l3] eqn:Ew.
  pose proof (f_equal fst HC) as HC1. pose proof (f_equal snd HC) as HC2. cbn [fst snd] in HC1, HC2. clear HC. subst code l'.
  destruct (add_ok _ _ _ _ El Hw1) as (X1 & Lo & Hne). destruct (write_memory_ok E t _ _ _ _ _ Ew (lext_wf _ _ X1) Lo) as (X2 & Hwr).
  assert (HL : (ol < length ls1)%nat) by (apply lext_len in X2; pose proof (proj1 Lo); lia).
  pose proof Hn as Hn0. destruct Hn0 as (Hh & Hms & _ & Hcn). pose proof (rep_typed _ _ _ _ _ Hr) as Hty.
  assert (HW : wp E (ca ++ [Const (VI32 vo); LSet ol] ++ cw ++ name_code n no ++ [Const (VI32 vo); Const (VI32 (get_type_size t mod m32)); Call "stdlib.save_constant"])
    (mkcfg ls k st) (fun o : outcome consts => exists ls' m', o = ONormal (mkcfg ls' k (mkstore m' (sglob st1) (set_const (shost st1) n v))))).
  { apply wp_app. destruct Hrun as (f0 & Hf0). exists f0. eexists. split; [exact Hf0|]. cbn [cont app].
    apply wp_const. apply wp_lset. eapply Hwr.
    - apply lset_same. exact HL.
    - rewrite lset_len. exact Hlen.
    - exact Hty.
    - exact H0.
    - lia.
    - rewrite Z.add_0_r. change m32 with (2 * 2 ^ 31). lia.
    - intros ls' m' K1 K2 K3. rewrite Z.add_0_r in K2, K3. unfold name_code. cbn [app]. apply wp_const, wp_const, wp_const, wp_const.
      assert (Hrep : rep m' P t v (blank t ws)).
      { apply blank_rep. destruct K2 as (K2a & K2b). apply (rep_frame (smem st1) m' P P); [exact K2a| |auto|exact Hr]. intros x Hx. apply K2b. specialize (HP x Hx). lia. }
      assert (Hname : name_at m' no (Z.of_nat (length n)) n).
      { destruct K2 as (K2a & K2b). split; [|split; [rewrite K2a; exact Hms|split; [reflexivity|exact Hcn]]]. apply (holds_ext (smem st1) m'); [exact K2a| |exact Hh]. intros x Hx. apply K2b. lia. }
      assert (Hread : read_from_wasm_indirect m' t (sgn32 vo) = Some v).
      { destruct K2 as (K2a & K2b). pose proof (size_pos _ Hok). rewrite sgn32_small by (change h32 with (2 ^ 31); lia).
        eapply (read_indirect_back m' P); [rewrite K2a; change h32 with (2 ^ 31); lia|exact Hok|exact Hrep|exact Ht|exact K3]. }
      eapply (const_call E "stdlib.save_constant" _ _ ls' k [VI32 no; VI32 (Z.of_nat (length n)); VI32 vo; VI32 (get_type_size t mod m32)]); [exact HI|reflexivity|reflexivity|].
      cbn [with_mem i_save_constant smem shost sglob]. rewrite (read_name_at _ _ _ _ Hname), Hd, Hread. cbn [ret_call cont rev app]. apply wp_nil. exists ls', m'. reflexivity. }
  destruct HW as (f0 & o & E1 & ls' & m' & ->). exists ls', m'. exists f0. exact E1.
Qed.
Print Assumptions C67_definition_records_value.

(** A literal is recorded from the words the linker placed for it. *)
Theorem C67_literal_records_value : forall E t v n no vo vl d B l code l' ls k st ws P,
  const_imports E -> ty_ok t -> has_type t v -> c_decl (shost st) n = Some t ->
  rep (smem st) P t v ws -> words_at (smem st) vo ws -> name_at (smem st) no (Z.of_nat (length n)) n ->
  e_define_literal n no vo vl d B l = (code, l') ->
  runs E code (mkcfg ls k st) (ONormal (mkcfg ls k (mkstore (smem st) (sglob st) (set_const (shost st) n v)))).
Proof.
  intros E t v n no vo vl d B l code l' ls k st ws P HI Hok Ht Hd Hr Hw Hn HC. pose proof (f_equal fst HC) as HC1. cbn [fst] in HC1. subst code.
  pose proof Hn as (_ & Hms & _). apply wp_runs. unfold name_code. cbn [app]. apply wp_const, wp_const, wp_const, wp_const.
  eapply (const_call E "stdlib.save_constant" _ _ ls k [VI32 no; VI32 (Z.of_nat (length n)); VI32 vo; VI32 vl]); [exact HI|reflexivity|reflexivity|].
  cbn [i_save_constant]. pose proof (size_pos _ Hok). pose proof (rep_words_len _ _ _ _ _ Hr) as Hl. destruct Hw as (W1 & W2 & W3).
  rewrite (read_name_at _ _ _ _ Hn), Hd. rewrite sgn32_small by (change h32 with (2 ^ 31); lia).
  rewrite (read_indirect_back (smem st) P ltac:(change h32 with (2 ^ 31); lia) t v ws vo Hok Hr Ht); [|split; [exact W1|split; [exact W2|exact W3]]].
  cbn [ret_call cont rev app]. apply wp_nil. reflexivity.
Qed.
Print Assumptions C67_literal_records_value.

(** ** Use *)
Definition const_fun (n : list Z) (no : Z) (t : ty) : func := define_body [] t (e_constant n no t).

(** A function that returns the constant returns words of the recorded value, when the type
    the host writes the value with ([value_type]: the type of the value itself, not the
    declared one) puts every component that another one follows in as many bytes as the
    declared type does. *)
Theorem C67_use_returns_value_partial : forall E f t v n no st sp,
  const_imports E -> efun E f = Some (const_fun n no t) -> ty_ok t -> no_trait t -> has_type t v -> c_val (shost st) n = Some v ->
  fits (value_type v) t ->
  name_at (smem st) no (Z.of_nat (length n)) n -> gget (sglob st) "stack-pointer" = Some (VI32 sp) -> 0 <= sp ->
  sp + call_stack_size t true true <= msize (smem st) ->
  exists ws st', calls E f [] st (RVals ws st') /\ rep (smem st') (fun x => sp <= x < sp + call_stack_size t true true) t v ws /\
    shost st' = shost st /\ (forall x, gget (sglob st') x = gget (sglob st) x) /\
    msize (smem st') = msize (smem st) /\ forall x, x < sp \/ sp + call_stack_size t true true <= x -> rd (smem st') x = rd (smem st) x.
Proof.
  intros E f t v n no st sp HI Hf Hok Hnt Ht Hv Hfit Hn Hsp H0 Hroom.
  pose proof Hn as (_ & Hms & _). pose proof (size_pos _ Hok) as Hpos. assert (Hcs : call_stack_size t true true = get_type_in_memory_size t true + get_type_size t) by reflexivity. pose proof (payload_bound t Hok v Ht) as Hpb. pose proof (payload_nonneg t v) as Hpn.
  destruct (value_type_ok v t Ht Hnt) as (Hb & Hvt). set (s := value_type v) in *.
  pose proof (below_ty_ok t Hok s Hb) as Hoks. pose proof (below_no_trait t Hnt s Hb) as Hnts. pose proof (below_size t Hok s Hb) as Hsz. pose proof (below_payload t Hok s v Hb Hvt) as Hpay.
  pose proof (size_nonneg s) as Hs0. pose proof (payload_nonneg s v) as Hp0.
  destruct (write_ok s Hoks Hnts v (smem st) sp (sp + get_type_size s) Hvt) as (m' & ws0 & Hwr & (Hm1 & Hm2) & Hw0 & Hr0); [lia|lia|change m32 with (2 * 2 ^ 31); lia|lia|lia|left; lia|].
  destruct (words_exist m' (clar2wasm_ty t) sp) as (ws' & Hty & Hw'); [lia|rewrite words_size_ty; lia|change m32 with (2 * 2 ^ 31); lia|].
  assert (HR : rep m' (fun x => sp <= x < sp + call_stack_size t true true) t v (blank t ws')).
  { apply blank_rep. eapply (fits_rep m' _ s t v sp ws0 ws'); try eassumption. eapply rep_weaken; [|exact Hr0]. cbv beta. lia. }
  assert (HF : wpf E f [] st (fun r => exists ws st', r = RVals ws st' /\ rep (smem st') (fun x => sp <= x < sp + call_stack_size t true true) t v ws /\
    shost st' = shost st /\ (forall x, gget (sglob st') x = gget (sglob st) x) /\
    msize (smem st') = msize (smem st) /\ forall x, x < sp \/ sp + call_stack_size t true true <= x -> rd (smem st') x = rd (smem st) x)).
  { eapply wpf_intro; [exact Hf|]. unfold const_fun, define_body, e_constant, name_code. cbn [param_locals create_call_stack_local add_local empty_l l_tys app length param_types map skipn fbody flocals fresults fst snd flat_map].
    eapply wp_gget; [exact Hsp|]. apply wp_lset. apply wp_block. cbn [firstn skipn setstk cstack clocals cstore lset zero_of].
    eapply wp_gget; [exact Hsp|]. apply wp_ltee. apply wp_const. cbn [lset].
    pose proof (Z.mod_pos_bound (call_stack_size t true true) m32 ltac:(reflexivity)) as Hmod.
    assert (Hmodeq : call_stack_size t true true mod m32 = call_stack_size t true true) by (apply Z.mod_small; change m32 with (2 * 2 ^ 31); lia).
    rewrite Hmodeq. eapply wp_b32; [reflexivity|]. rewrite (Z.mod_small (sp + call_stack_size t true true)) by (change m32 with (2 * 2 ^ 31); lia). apply wp_gset.
    apply wp_const, wp_const. eapply wp_lget; [reflexivity|]. apply wp_const.
    cbn [clocals cstore cstack lset]. set (st1 := with_glob st (gset (sglob st) "stack-pointer" (VI32 (sp + call_stack_size t true true)))).
    eapply (const_call E "stdlib.load_constant" _ _ _ _ [VI32 no; VI32 (Z.of_nat (length n)); VI32 sp; VI32 (call_stack_size t true true)]); [exact HI|reflexivity|reflexivity|].
    assert (EQ : i_load_constant [VI32 no; VI32 (Z.of_nat (length n)); VI32 sp; VI32 (call_stack_size t true true)] st1 = RVals [] (mkstore m' (sglob st1) (shost st1))).
    { unfold i_load_constant. change (smem st1) with (smem st). change (shost st1) with (shost st). rewrite (read_name_at _ _ _ _ Hn), Hv. fold s.
      rewrite sgn32_small by (change h32 with (2 ^ 31); lia). rewrite Hwr. reflexivity. }
    rewrite EQ. cbn [ret_call cont rev app]. rewrite <- (app_nil_r (read_from_memory t _ 0)).
    eapply (read_memory_ok E t _ _ _ _ 1%nat 0 sp ws'); [reflexivity|exact Hty|cbn [smem]; rewrite Z.add_0_r; exact Hw'|].
    apply wp_nil. unfold qblock. cbn [exit_block cstack]. rewrite !app_nil_r.
    cbn [cont setstk cstack clocals cstore]. eapply wp_lget; [reflexivity|]. apply wp_gset. apply wp_nil. unfold qfunc. cbn [exit_func cstack cstore]. rewrite rev_involutive.
    eexists _, _. split; [reflexivity|]. cbn [smem shost sglob with_glob]. split; [exact HR|]. split; [reflexivity|]. split.
    - intros x. destruct (String.eqb_spec x "stack-pointer") as [->|Hx].
      + rewrite Hsp. eapply gget_set. unfold st1. cbn [with_glob sglob]. eapply gget_set. exact Hsp.
      + rewrite gget_set_other by congruence. unfold st1. cbn [with_glob sglob]. rewrite gget_set_other by congruence. reflexivity.
    - split; [exact Hm1|]. intros x Hx. apply Hm2; lia. }
  destruct HF as (f0 & r & E1 & ws & st' & -> & E2). exists ws, st'. split; [exists f0; exact E1|exact E2].
Qed.
Print Assumptions C67_use_returns_value_partial.

(** Types that have this property for all their values. *)
Theorem C67_fitting_constants : forall v,
  (forall t, has_type t v -> no_trait t -> solid t -> fits (value_type v) t) /\
  (forall t, has_type t v -> no_trait t -> solid t -> fits (value_type (CSome v)) (TOpt t) /\ fits (value_type CNone) (TOpt t) /\ forall e, fits (value_type (COk v)) (TResp t e)) /\
  (forall t e, has_type e v -> no_trait e -> solid e -> get_type_size t = 4 -> fits (value_type (CErr v)) (TResp t e)).
Proof.
  intros v. split; [|split].
  - intros t. apply solid_fits.
  - intros t H1 H2 H3. pose proof (solid_fits t v H1 H2 H3). split; [apply some_fits; assumption|]. split; [exact I|]. intros e. apply ok_fits. assumption.
  - intros t e H1 H2 H3 H4. apply err_fits; [apply solid_fits; assumption|exact H4].
Qed.
Print Assumptions C67_fitting_constants.

(** ** A compiled contract *)
(*  (define-constant c (if true (err 1) (ok u2)))
    (define-constant p {a: (if false (some u9) none), b: u5})
    (define-constant q (list u3 u4))                           *)
Definition cn : list Z := [99]. Definition pn : list Z := [112]. Definition qn : list Z := [113].
Definition ct : ty := TResp TUInt TInt.
Definition pt : ty := TTuple [("a", TOpt TUInt); ("b", TUInt)].
Definition qt : ty := TList 2 TUInt.
Definition decl (n : list Z) : option ty := if name_eq_dec n cn then Some ct else if name_eq_dec n pn then Some pt else if name_eq_dec n qn then Some qt else None.
Definition seq (a b : frag) : frag := fun d B l => let '(c1, l) := a d B l in let '(c2, l) := b d B l in (c1 ++ c2, l).
Definition define_all : frag :=
  seq (e_define_constant cn 10 100 ct (e_if ct (e_bool true) (e_err TUInt (e_num 1)) (e_ok (e_num 2) TInt)))
    (seq (e_define_constant pn 11 200 pt (e_tuple [("a", TOpt TUInt); ("b", TUInt)] [("a", e_if (TOpt TUInt) (e_bool false) (e_some (e_num 9)) (e_none (TOpt TUInt))); ("b", e_num 5)]))
      (e_define_constant qn 12 300 qt (e_list 2 TUInt [e_num 3; e_num 4]))).
Definition ex_cfuns : list (string * func) :=
  [("top-level", define_body [] (TTuple []) define_all); ("get-c", const_fun cn 10 ct); ("get-p", const_fun pn 11 pt); ("get-q", const_fun qn 12 qt)].
Definition ex_cenv : env consts := mkenv (fun f => assoc f ex_cfuns) (fun f => assoc f const_host) [].
Definition ex_cst : store consts :=
  mkstore (write_bytes (mkmem (fun _ => 0) 65536) 10 [99; 112; 113]) [("stack-pointer", VI32 1000)] (mkconsts decl (fun _ => None)).
Definition vc : value := CErr (CInt 1).
Definition vp : value := CTuple [("a", CNone); ("b", CUInt 5)].
Definition vq : value := CList [CUInt 3; CUInt 4].

Definition after (st : store consts) (f : string) : option (store consts * list val) :=
  match invoke ex_cenv 1000 f [] st with RVals ws st' => Some (st', ws) | _ => None end.
Definition st_defined : store consts := match after ex_cst "top-level" with Some (st, _) => st | None => ex_cst end.

Example C67_ex_imports : const_imports ex_cenv.
Proof. intros f ps h H. cbn [assoc const_host] in H. repeat (match type of H with context [String.eqb ?a f] => destruct (String.eqb_spec a f); [subst f; split; [reflexivity|exact H]|] end). discriminate H. Qed.
Example C67_ex_defined : match after ex_cst "top-level" with Some (st, _) => c_val (shost st) cn = Some vc /\ c_val (shost st) pn = Some vp /\ c_val (shost st) qn = Some vq | None => False end.
Proof. vm_compute. auto. Qed.
(** the hypotheses of [C67_use_returns_value_partial], and what it promises, on [q] *)
Example C67_ex_fits : fits (value_type vq) qt /\ ~ fits (value_type vc) ct /\ ~ fits (value_type vp) pt.
Proof. split; [right; split; [reflexivity|exact I]|]. split; vm_compute; intuition discriminate. Qed.
Example C67_ex_use : match after st_defined "get-q" with Some (st, ws) => ws = [VI32 1008; VI32 32] /\ read_from_wasm_indirect (smem st) (TTuple [("x", TUInt); ("y", TUInt)]) 1008 = Some (CTuple [("x", CUInt 3); ("y", CUInt 4)]) | None => False end.
Proof. vm_compute. auto. Qed.

Lemma after_calls st f st' ws : after st f = Some (st', ws) -> calls ex_cenv f [] st (RVals ws st').
Proof.
  unfold after. destruct (invoke ex_cenv 1000 f [] st) as [ws0 st0|k st0| |] eqn:E; try discriminate. intros H. assert (ws0 = ws /\ st0 = st') as (-> & ->) by (split; congruence).
  eapply (calls_compute ex_cenv 1000); [exact E|discriminate].
Qed.

(** The written type is the value's own, so the declared one reads the fields elsewhere:
    [c] was defined as [(err 1)] and recorded as [(err 1)], and its use is [(err 0)];
    [p] was defined as [{a: none, b: u5}], and its use is [{a: none, b: u0}]. *)
Theorem C67_read_back_refuted : exists E, const_imports E /\ exists st,
  (exists st0, calls E "top-level" [] st0 (RVals [] st)) /\
  c_decl (shost st) cn = Some ct /\ c_val (shost st) cn = Some vc /\ has_type ct vc /\ efun E "get-c" = Some (const_fun cn 10 ct) /\
  c_decl (shost st) pn = Some pt /\ c_val (shost st) pn = Some vp /\ has_type pt vp /\ efun E "get-p" = Some (const_fun pn 11 pt) /\
  (forall ws st', calls E "get-c" [] st (RVals ws st') -> forall P, rep (smem st') P ct (CErr (CInt 0)) ws /\ ~ rep (smem st') P ct vc ws) /\
  (forall ws st', calls E "get-p" [] st (RVals ws st') -> forall P, rep (smem st') P pt (CTuple [("a", CNone); ("b", CUInt 0)]) ws /\ ~ rep (smem st') P pt vp ws).
Proof.
  exists ex_cenv. split; [exact C67_ex_imports|]. exists st_defined.
  split. { exists ex_cst. apply after_calls. unfold st_defined.
    assert (K : match after ex_cst "top-level" with Some (_, ws) => ws | None => [VI32 0] end = []) by (vm_compute; reflexivity).
    destruct (after ex_cst "top-level") as [(st, ws)|]; [|discriminate K]. rewrite K. reflexivity. }
  split; [reflexivity|]. split; [vm_compute; reflexivity|]. split; [vm_compute; split; [discriminate|reflexivity]|]. split; [reflexivity|].
  split; [reflexivity|]. split; [vm_compute; reflexivity|]. split; [vm_compute; repeat split; discriminate|]. split; [reflexivity|]. split.
  - intros ws st' HC P. assert (K : match after st_defined "get-c" with Some (_, ws) => ws | None => [] end = [VI32 0; VI64 4294967296; VI64 0; VI64 0; VI64 0]) by (vm_compute; reflexivity).
    destruct (after st_defined "get-c") as [(st2, ws2)|] eqn:E; [|discriminate K]. subst ws2.
    pose proof (calls_det _ _ _ _ _ _ HC (after_calls _ _ _ _ E)) as HE. injection HE as -> _. split.
    + exists [VI64 4294967296; VI64 0], [VI64 0; VI64 0]. split; [reflexivity|]. split; [|reflexivity]. constructor; [cbn; lia|constructor; [cbn; lia|constructor]].
    + intros (w1 & w2 & H1 & H2 & H3). cbn [rep] in H3. subst w2. inversion H2 as [|? x ? r ? H2']; subst. inversion H2' as [|? y ? r' ? H2'']; subst. inversion H2''; subst. discriminate H1.
  - intros ws st' HC P. assert (K : match after st_defined "get-p" with Some (_, ws) => ws | None => [] end = [VI32 0; VI64 21474836480; VI64 0; VI64 0; VI64 0]) by (vm_compute; reflexivity).
    destruct (after st_defined "get-p") as [(st2, ws2)|] eqn:E; [|discriminate K]. subst ws2.
    pose proof (calls_det _ _ _ _ _ _ HC (after_calls _ _ _ _ E)) as HE. injection HE as -> _. split.
    + exists [VI32 0; VI64 21474836480; VI64 0], [VI64 0; VI64 0]. split; [reflexivity|]. split; [reflexivity|]. split.
      * exists [VI64 21474836480; VI64 0]. split; [reflexivity|]. constructor; [cbn; lia|constructor; [cbn; lia|constructor]].
      * exists [VI64 0; VI64 0], []. repeat split; reflexivity.
    + intros (w1 & w2 & _ & H1 & (w3 & -> & H2) & (w4 & w5 & _ & -> & H3 & H5)). cbn [rep] in H3. subst w4 w5. inversion H2 as [|? x ? r ? H2']; subst. inversion H2' as [|? y ? r' ? H2'']; subst. inversion H2''; subst. discriminate H1.
Qed.
Print Assumptions C67_read_back_refuted.
