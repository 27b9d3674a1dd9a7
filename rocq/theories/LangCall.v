(** * Correctness of emitted expression code: calls of private functions (proof support) *)
From Coq Require Import ZArith String List Bool Lia.
Import ListNotations.
From Verif Require Import Wasm Std StdEnv WasmLogic WasmTac Mem MemFacts Bytes Spec SpecBytes SpecUtf8 ArithProofs Clar Rep RepFacts WriteProofs Emit EmitFacts EmitProofs
  Equal EqualProofs CallProofs ArgProofs Ast SpecLang Lang Typing LangFacts LangBase LangCtl LangEarly LangMem LangSeq LangCopy.
Open Scope string_scope.
Open Scope list_scope.
Open Scope Z_scope.

(** ** Scopes: the host functions called around a call or [as-contract] *)
Definition open_fun (s : scope) : string :=
  match s with SPublic => "stdlib.begin_public_call" | SReadOnly => "stdlib.begin_read_only_call" | SContract => "stdlib.enter_as_contract" end.
Definition close_fun (s : scope) (keep : bool) : string :=
  match s with SPublic => if keep then "stdlib.commit_call" else "stdlib.roll_back_call" | SReadOnly => "stdlib.roll_back_call" | SContract => "stdlib.exit_as_contract" end.
Definition host_at {HS} (st : store HS) (h : HS) : store HS := mkstore (smem st) (sglob st) h.
Definition scope_ok {HS} {CH : chain HS} (E : env HS) : Prop :=
  (forall s (st : store HS) h, chain_open s (shost st) = Some h -> fun_arity E (open_fun s) = Some 0%nat /\ wpf E (open_fun s) [] st (fun r => r = RVals [] (host_at st h))) /\
  (forall s keep (st : store HS) h, chain_close s keep (shost st) = Some h ->
     fun_arity E (close_fun s keep) = Some 0%nat /\ wpf E (close_fun s keep) [] st (fun r => r = RVals [] (host_at st h))).

Section Call.
Context {HS : Type} {CH : chain HS} (E : env HS) (rt : ty) (L : list (ty * value * Z)) (X : Z) (HX0 : 0 <= X).
Variable funs : string -> list value -> M HS value.
Notation wp := (wp E).
Notation impl := (impl E rt L X).
Notation ctx := (ctx L X).
Notation sub_ok := (sub_ok E rt L X).
Ltac lenl := repeat match goal with H : lext _ _ |- _ => apply lext_len in H | H : moved _ _ _ _ _ _ _ _ |- _ => apply m_ls, lkeep_len in H end; lia.

(** calling [f] does what [funs f] says *)
Definition fun_ok (f : string) (ts : list ty) (tr : ty) : Prop :=
  fun_arity E f = Some (length (flat_map clar2wasm_ty ts)) /\
  forall vs ws (st : store HS) sp (F : Z -> Prop) rs,
    gget (sglob st) "stack-pointer" = Some (VI32 sp) -> (exists w, gget (sglob st) "runtime-error-code" = Some w) -> 0 <= sp ->
    (forall a, sp <= a -> F a) -> Forall (held (smem st) (vis F sp)) L -> sp + X <= msize (smem st) < m32 -> msize (smem st) <= chain_cap (HS := HS) ->
    rep_list (smem st) (vis F sp) ts vs ws -> Forall2 has_type ts vs -> funs f vs (shost st) = Some rs ->
    wpf E f ws st (fun r => match rs with
      | Done v h => exists ws' st', r = RVals ws' st' /\ below sp (smem st) (smem st') /\ (forall n, gget (sglob st') n = gget (sglob st) n) /\
          shost st' = h /\ rep (smem st') F tr v ws' /\ has_type tr v
      | Abort c => (exists st', r = RTrap TUnreachable st' /\ gget (sglob st') "runtime-error-code" = Some (VI32 c)) \/
          (exists st', r = RTrap THost st' /\ c = err_host)
      | Early _ _ => False
      end).

Lemma rep_list_len m P ts vs ws : rep_list m P ts vs ws -> length ws = length (flat_map clar2wasm_ty ts).
Proof. induction 1 as [|t ts v vs w ws H1 H2 IH]; [reflexivity|]. cbn [flat_map]. rewrite !app_length, (rep_len _ _ _ _ _ H1), IH. reflexivity. Qed.

Lemma wp_call_all f n ws k js ls (st : store HS) Q : fun_arity E f = Some n -> length ws = n ->
  wpf E f ws st (qcall E ls k js Q) -> wp (Call f :: js) (mkcfg ls (rev ws ++ k) st) Q.
Proof.
  intros Ha HL HW. eapply wp_call; [exact Ha|]. cbn [cstack clocals cstore].
  assert (HL' : length (rev ws) = n) by (rewrite rev_length; exact HL).
  rewrite firstn_app, skipn_app, HL', Nat.sub_diag, firstn_O, app_nil_r. replace n with (length (rev ws)) by exact HL'.
  rewrite firstn_all, skipn_all, rev_involutive. exact HW.
Qed.

Lemma wpf_mono (f : string) ws (st : store HS) (R R' : result HS -> Prop) : wpf E f ws st R -> (forall r, R r -> R' r) -> wpf E f ws st R'.
Proof. intros (f0 & r & H1 & H2) H. exists f0, r. split; auto. Qed.

Lemma open_run s (st : store HS) h ls k js Q : scope_ok E -> chain_open s (shost st) = Some h -> wp js (mkcfg ls k (host_at st h)) Q -> wp (Call (open_fun s) :: js) (mkcfg ls k st) Q.
Proof.
  intros (HO & _) Ho HW. destruct (HO _ _ _ Ho) as (A1 & A2). apply (wp_call_all (open_fun s) 0%nat [] k js ls st Q A1 eq_refl). eapply wpf_mono; [exact A2|]. intros r ->. exact HW.
Qed.
Lemma close_run s keep (st : store HS) h ls k js Q : scope_ok E -> chain_close s keep (shost st) = Some h -> wp js (mkcfg ls k (host_at st h)) Q -> wp (Call (close_fun s keep) :: js) (mkcfg ls k st) Q.
Proof.
  intros (_ & HO) Ho HW. destruct (HO _ _ _ _ Ho) as (A1 & A2). apply (wp_call_all (close_fun s keep) 0%nat [] k js ls st Q A1 eq_refl). eapply wpf_mono; [exact A2|]. intros r ->. exact HW.
Qed.

(** the call itself, with what the host is told before and after *)
Lemma invoke_ok kd f ts tr l ci l1 : scope_ok E -> fun_ok f ts tr -> (match kd with KPublic => match tr with TResp _ _ => true | _ => false end | _ => true end) = true ->
  call_code kd f tr l = (ci, l1) -> lwf l -> lext l l1 /\
  forall vs ws (st : store HS) sp (F : Z -> Prop) rs js ls k Q,
    gget (sglob st) "stack-pointer" = Some (VI32 sp) -> (exists w, gget (sglob st) "runtime-error-code" = Some w) -> 0 <= sp ->
    (forall a, sp <= a -> F a) -> Forall (held (smem st) (vis F sp)) L -> sp + X <= msize (smem st) < m32 -> msize (smem st) <= chain_cap (HS := HS) ->
    rep_list (smem st) (vis F sp) ts vs ws -> Forall2 has_type ts vs -> called_as true kd (funs f vs) (shost st) = Some rs -> (llen l1 <= length ls)%nat ->
    (match rs with
     | Done v h => forall ws' ls' st', lkeep l ls ls' -> below sp (smem st) (smem st') -> (forall n, gget (sglob st') n = gget (sglob st) n) -> shost st' = h ->
         rep (smem st') F tr v ws' -> has_type tr v -> wp js (mkcfg ls' (rev ws' ++ k) st') Q
     | Abort c => (forall st', gget (sglob st') "runtime-error-code" = Some (VI32 c) -> Q (OTrap TUnreachable st')) /\ (c = err_host -> forall st', Q (OTrap THost st'))
     | Early _ _ => True
     end) ->
    wp (ci ++ js) (mkcfg ls (rev ws ++ k) st) Q.
Proof.
  intros HO (Har & Hfun) Hrt HC Hw.
  assert (CALL : forall vs ws (st : store HS) sp (F : Z -> Prop) rs js ls k Q,
    gget (sglob st) "stack-pointer" = Some (VI32 sp) -> (exists w, gget (sglob st) "runtime-error-code" = Some w) -> 0 <= sp ->
    (forall a, sp <= a -> F a) -> Forall (held (smem st) (vis F sp)) L -> sp + X <= msize (smem st) < m32 -> msize (smem st) <= chain_cap (HS := HS) ->
    rep_list (smem st) (vis F sp) ts vs ws -> Forall2 has_type ts vs -> funs f vs (shost st) = Some rs ->
    (match rs with
     | Done v h => forall ws' st', below sp (smem st) (smem st') -> (forall n, gget (sglob st') n = gget (sglob st) n) -> shost st' = h ->
         rep (smem st') F tr v ws' -> has_type tr v -> wp js (mkcfg ls (rev ws' ++ k) st') Q
     | Abort c => (forall st', gget (sglob st') "runtime-error-code" = Some (VI32 c) -> Q (OTrap TUnreachable st')) /\ (c = err_host -> forall st', Q (OTrap THost st'))
     | Early _ _ => True
     end) -> wp (Call f :: js) (mkcfg ls (rev ws ++ k) st) Q).
  { intros vs ws st sp F rs js ls k Q H1 H2 H3 H4 H5 H6 H7 H8 H9 H10 HW. eapply wp_call_all; [exact Har|eapply rep_list_len; exact H8|].
    eapply wpf_mono; [apply (Hfun vs ws st sp F rs); assumption|]. intros res Hres. unfold qcall. destruct rs as [v h|v h|c].
    - destruct Hres as (ws' & st3 & -> & Hb3 & Hg3 & Hh3 & Hr3 & Ht3). cbn [ret_call cont]. apply HW; assumption.
    - contradiction.
    - destruct Hres as [(st3 & -> & Hc3)|(st3 & -> & Hc3)]; cbn [ret_call cont]; [exact (proj1 HW _ Hc3)|exact (proj2 HW Hc3 _)]. }
  destruct kd; cbn [call_code] in HC.
  - injection HC as <- <-. split; [apply lext_refl; exact Hw|]. intros vs ws st sp F rs js ls k Q H1 H2 H3 H4 H5 H6 H7 H8 H9 H10 HL HW.
    cbn [app]. eapply CALL; try eassumption. destruct rs; auto. intros ws' st'. apply HW. apply lkeep_refl.
  - destruct (save_to_locals tr l) as [[is cs] l2] eqn:Es. pose proof (f_equal fst HC) as HC1; pose proof (f_equal snd HC) as HC2; cbn [fst snd] in HC1, HC2; clear HC; subst ci l1.
    destruct (save_ok E _ _ _ _ _ Es Hw) as (X1 & L1 & Hln & Hsv). split; [exact X1|]. intros vs ws st sp F rs js ls k Q H1 H2 H3 H4 H5 H6 H7 H8 H9 H10 HL HW.
    unfold called_as in H10. cbn [kind_scope] in H10. unfold scoped in H10. destruct (chain_open SPublic (shost st)) as [h1|] eqn:Ho; [|discriminate].
    rewrite <- !app_assoc. cbn [app]. eapply (open_run SPublic); [exact HO|exact Ho|].
    destruct (funs f vs h1) as [rs1|] eqn:Hf; [|discriminate].
    eapply (CALL vs ws (host_at st h1) sp F rs1); try assumption.
    destruct rs1 as [v h2|v h2|c]; [|exact I|injection H10 as <-; exact HW].
    destruct (chain_close SPublic (is_ok v) h2) as [h3|] eqn:Hcl; [|discriminate]. injection H10 as <-.
    intros ws' st2 Hb Hg Hh Hr Ht. eapply Hsv; [eapply rep_len; exact Hr|lia|]. intros ls3 K3 V3.
    assert (Hhd : nth_error ls3 (hd O is) = Some (VI32 (b2z (is_ok v)))).
    { destruct tr; try discriminate Hrt. destruct v; cbn [has_type] in Ht; try contradiction; cbn [rep] in Hr;
        destruct Hr as (w1 & w2 & Ew & _); rewrite Ew in V3; inversion V3 as [|i0 ? is0 ? Hi0 ?]; subst; exact Hi0. }
    cbn [app]. eapply wp_lget; [exact Hhd|].
    assert (HE : wp (push_locals is ++ js) (mkcfg ls3 k (host_at st2 h3)) Q).
    { eapply wp_lgets; [exact V3|]. apply (HW ws' ls3 (host_at st2 h3)); auto. }
    subst h2. apply wp_if_bool; intros Hk; rewrite Hk in Hcl.
    + apply (close_run SPublic true st2 h3 ls3 [] [] _ HO Hcl). apply wp_nil. exact HE.
    + apply (close_run SPublic false st2 h3 ls3 [] [] _ HO Hcl). apply wp_nil. exact HE.
  - injection HC as <- <-. split; [apply lext_refl; exact Hw|]. intros vs ws st sp F rs js ls k Q H1 H2 H3 H4 H5 H6 H7 H8 H9 H10 HL HW.
    unfold called_as in H10. cbn [kind_scope] in H10. unfold scoped in H10. destruct (chain_open SReadOnly (shost st)) as [h1|] eqn:Ho; [|discriminate].
    cbn [app]. eapply (open_run SReadOnly); [exact HO|exact Ho|].
    destruct (funs f vs h1) as [rs1|] eqn:Hf; [|discriminate].
    eapply (CALL vs ws (host_at st h1) sp F rs1); try assumption.
    destruct rs1 as [v h2|v h2|c]; [|exact I|injection H10 as <-; exact HW].
    destruct (chain_close SReadOnly (is_ok v) h2) as [h3|] eqn:Hcl; [|discriminate]. injection H10 as <-.
    intros ws' st2 Hb Hg Hh Hr Ht. subst h2. apply (close_run SReadOnly (is_ok v) st2 h3); [exact HO|exact Hcl|]. apply (HW ws' ls (host_at st2 h3)); auto. apply lkeep_refl.
Qed.

Lemma call_ok G kd f t tr ss : scope_ok E -> (match kd with KPublic => match tr with TResp _ _ => true | _ => false end | _ => true end) = true -> fun_ok f (map (@s_t HS) ss) tr -> widens tr t = true -> ty_ok tr -> Forall (sub_ok G) ss ->
  impl G t ((if has_in_memory tr then count_in_memory_space tr else 0) + sfr ss) (e_call kd f tr t (map (@s_c HS) ss))
    (fun r => bind (mapM (map (fun s => s_m s r) ss)) (fun vs => called_as true kd (funs f vs))).
Proof.
  intros HO Hkr Hfun Hwd Hok Hs. pose proof (sfr_nonneg _ _ _ _ _ _ Hs) as P2. destruct (count_space tr Hok) as (P1 & Hspace).
  split; [destruct (has_in_memory tr); lia|]. intros d B l code l' HC Hw. unfold e_call, visit_call in HC.
  destruct (operands (map (@s_c HS) ss) d B l) as [ca l1] eqn:Eo. pose proof (operands_ext E rt L X G ss _ _ _ _ _ Eo Hs Hw) as Xo.
  destruct (has_in_memory tr) eqn:Hm.
  - (* the value has parts in memory *)
    destruct (add_local T32 l1) as [o l2'] eqn:Ea. destruct (call_code kd f tr l2') as [ci l2] eqn:Ei. destruct (save_to_locals t l2) as [[is cs] l3] eqn:Es. destruct (copy_value t is o l3) as [cc l4] eqn:Ec.
    remember (count_in_memory_space tr) as sz eqn:Hsz. pose proof (f_equal fst HC) as HC1; pose proof (f_equal snd HC) as HC2; cbn [fst snd] in HC1, HC2; clear HC; subst code l'.
    destruct (add_ok _ _ _ _ Ea (lext_wf _ _ Xo)) as (A1' & A2' & A3).
    destruct (invoke_ok kd f _ tr _ _ _ HO Hfun Hkr Ei (lext_wf _ _ A1')) as (Xi & Hinv).
    pose proof (lext_trans _ _ _ A1' Xi) as A1. pose proof (lext_live _ _ _ Xi A2') as A2.
    destruct (save_ok E _ _ _ _ _ Es (lext_wf _ _ A1)) as (X1 & L1 & Hln & Hsv). destruct (save_fresh _ _ _ _ _ Es (lext_wf _ _ A1)) as (Nd1 & N1).
    assert (No : ~ In o is) by (intros Hi; rewrite Forall_forall in N1; exact (N1 _ Hi A2)).
    destruct (copy_value_ok E t _ _ _ _ _ Ec (lext_wf _ _ X1) L1 (lext_live _ _ _ X1 A2) Nd1 No Hln) as (X2 & Hcp).
    assert (X04 : lext l l4) by (eapply lext_trans; [exact Xo|]; eapply lext_trans; [exact A1|]; eapply lext_trans; eauto).
    split; [exact X04|]. intros F r js ls k st sp Q rs Hmr HC HL HX HW. rewrite <- !app_assoc.
    eapply (operands_run E rt L X G B r F l ls st sp _ d Q rs HC HX ss l ca l1 Eo Hs (lext_refl _ Hw) ltac:(lenl) ls st sp 0); [eapply moved_refl; eauto|lia|exact Hmr|].
    intros vs ls1 st1 sp1 ws Hrl Hty HM1 HM Hf. clear HM1. rewrite Z.add_0_l in HM.
    assert (HC1 : ctx G B r F l1 ls1 st1 sp1 sz) by (eapply ctx_moved; [exact HC|exact Xo|exact HM|lia]).
    pose proof (c_room _ _ _ _ _ _ _ _ _ _ _ HC1) as Hrm. pose proof (c_lo _ _ _ _ _ _ _ _ _ _ _ HC1) as Hlo.
    cbn [app]. eapply wp_gget; [eapply c_sp; exact HC1|]. apply wp_ltee. apply wp_const. rewrite (Z.mod_small sz) by lia.
    eapply wp_b32; [cbn [ibin]; rewrite Z.mod_small by lia; reflexivity|]. apply wp_gset.
    set (ls2 := lset ls1 o (VI32 sp1)). set (st2 := with_glob st1 (gset (sglob st1) "stack-pointer" (VI32 (sp1 + sz)))).
    assert (Hsp2 : gget (sglob st2) "stack-pointer" = Some (VI32 (sp1 + sz))) by (eapply gget_set; eapply c_sp; exact HC1).
    assert (Hgl2 : forall n, n <> "stack-pointer" -> gget (sglob st2) n = gget (sglob st1) n) by (intros n Hn; apply gget_set_other; exact Hn).
    assert (Ho2 : nth_error ls2 o = Some (VI32 sp1)) by (apply lset_same; destruct A2 as (A2 & _); lenl).
    assert (K2 : lkeep l1 ls1 ls2) by (apply lkeep_lset; exact A3).
    assert (Hlen2 : length ls2 = length ls) by (unfold ls2; rewrite lset_len; lenl).
    set (F2 := fun a => vis F sp1 a \/ sp1 + sz <= a).
    assert (HV2 : forall a, vis F sp1 a -> vis F2 (sp1 + sz) a) by (intros a Ha; split; [destruct Ha; lia|left; exact Ha]).
    eapply (Hinv vs ws st2 (sp1 + sz) F2 rs _ ls2 k Q Hsp2).
    + rewrite Hgl2 by discriminate. eapply c_err; exact HC1.
    + lia.
    + intros a Ha. right. exact Ha.
    + eapply Forall_impl; [|eapply c_lits; exact HC1]. intros x. apply held_frame; auto.
    + change (smem st2) with (smem st1). lia.
    + change (smem st2) with (smem st1). eapply c_cap; exact HC1.
    + change (smem st2) with (smem st1). eapply rep_list_frame; [reflexivity|reflexivity|exact HV2|exact Hrl].
    + exact Hty.
    + exact Hf.
    + lenl.
    + destruct rs as [v h|v h|c]; [|exact I|exact HX].
      * intros ws' ls2i st3 Ki (Hz3 & Hb3) Hg3 Hh3 Hr3 Ht3.
        pose proof (lkeep_len _ _ _ Ki) as HLi. change (smem st2) with (smem st1) in Hz3, Hb3.
        pose proof (widens_rep _ _ _ _ _ _ Hwd Hr3) as Hr4. pose proof (widens_has_type _ _ _ Hwd Ht3) as Ht4.
        pose proof (Hspace _ Ht3) as Hpay. rewrite <- (widens_payload _ _ v Hwd) in Hpay. pose proof (payload_nonneg t v) as Hp0.
        eapply Hsv; [eapply rep_len; exact Hr4|lenl|]. intros ls3 K3 V3.
        assert (Ho3 : nth_error ls3 o = Some (VI32 sp1)) by (rewrite (lkeep_get _ _ _ _ K3 A2), (lkeep_get _ _ _ _ Ki A2'); exact Ho2).
        pose proof (lkeep_len _ _ _ K3) as HL3.
        eapply (Hcp _ _ _ st3 sp1 v ws' F2 _ Ho3 V3 Hr4); [lia|lia|lia| |].
        { intros x [(Hx & _)|Hx]; lia. }
        intros ls4 m4 ws4 K4 C4 V4 O4 R4. eapply wp_lgets; [exact V4|].
        assert (Hz4 : msize m4 = msize (smem st1)) by (destruct O4; congruence).
        apply (HW v h ls4 (with_mem st3 m4) (sp1 + sz) ws4 eq_refl). constructor.
        -- pose proof HM as [M1 M2 M3 M4 M5]. constructor.
           ++ eapply lkeep_trans; [exact Xo|exact M1|]. eapply lkeep_trans0; [exact K2|]. eapply lkeep_trans0; [eapply lkeep_weaken; [exact A1'|exact Ki]|]. eapply lkeep_trans0; [eapply lkeep_weaken; [exact A1|exact K3]|].
              assert (X13 : lext l1 l3) by (eapply lext_trans; eauto).
              destruct K4 as (K4a & K4b). split; [exact K4a|]. intros i Hi. apply K4b. apply live_hide. split; [eapply lext_live; eauto|].
              intros [<-|Hx]; [contradiction|]. rewrite Forall_forall in N1. apply (N1 _ Hx). eapply lext_live; eauto.
           ++ cbn [smem with_mem]. eapply below_trans with (sp' := sp1); [lia|exact M2|]. split; [exact Hz4|]. intros a Ha.
              destruct O4 as (_ & O4). rewrite O4 by lia. apply Hb3. lia.
           ++ cbn [sglob with_mem]. rewrite Hg3. exact Hsp2.
           ++ cbn [sglob with_mem]. intros n Hn. rewrite Hg3, Hgl2 by auto. apply M4. exact Hn.
           ++ lia.
        -- cbn [smem with_mem]. eapply rep_weaken; [|exact R4]. intros x Hx. unfold seg in Hx. split; [lia|]. eapply c_up; [exact HC1|lia].
        -- exact Ht4.
        -- exact Hh3.
  - (* no parts in memory *)
    destruct (call_code kd f tr l1) as [ci l2] eqn:Ei. pose proof (f_equal fst HC) as HC1; pose proof (f_equal snd HC) as HC2; cbn [fst snd] in HC1, HC2; clear HC; subst code l'.
    destruct (invoke_ok kd f _ tr _ _ _ HO Hfun Hkr Ei (lext_wf _ _ Xo)) as (Xi & Hinv).
    split; [eapply lext_trans; eauto|]. intros F r js ls k st sp Q rs Hmr HC HL HX HW. rewrite <- !app_assoc.
    eapply (operands_run E rt L X G B r F l ls st sp _ d Q rs HC HX ss l ca l1 Eo Hs (lext_refl _ Hw) ltac:(lenl) ls st sp 0); [eapply moved_refl; eauto|lia|exact Hmr|].
    intros vs ls1 st1 sp1 ws Hrl Hty HM1 HM Hf. clear HM1. rewrite Z.add_0_l in HM.
    assert (HC1 : ctx G B r F l1 ls1 st1 sp1 0) by (eapply ctx_moved; [exact HC|exact Xo|exact HM|lia]).
    pose proof (c_room _ _ _ _ _ _ _ _ _ _ _ HC1) as Hrm. pose proof (c_lo _ _ _ _ _ _ _ _ _ _ _ HC1) as Hlo.
    eapply (Hinv vs ws st1 sp1 F rs _ ls1 k Q).
    + eapply c_sp; exact HC1.
    + eapply c_err; exact HC1.
    + lia.
    + eapply c_up; exact HC1.
    + eapply c_lits; exact HC1.
    + lia.
    + eapply c_cap; exact HC1.
    + exact Hrl.
    + exact Hty.
    + exact Hf.
    + lenl.
    + destruct rs as [v h|v h|c]; [|exact I|exact HX].
      intros ws' ls2 st3 Ki (Hz3 & Hb3) Hg3 Hh3 Hr3 Ht3. pose proof HM as [M1 M2 M3 M4 M5].
      apply (HW v h ls2 st3 sp1 ws' eq_refl). constructor.
      * constructor; [eapply lkeep_trans; [exact Xo|exact M1|exact Ki]| | | |lia].
        -- eapply below_trans with (sp' := sp1); [lia|exact M2|]. split; auto.
        -- rewrite Hg3. exact M3.
        -- intros n Hn. rewrite Hg3. apply M4. exact Hn.
      * eapply widens_rep; [exact Hwd|]. eapply no_mem_rep; eauto.
      * eapply widens_has_type; eauto.
      * exact Hh3.
Qed.

(** words/contract.rs 23-46: when the inner expression does not leave the function *)
Lemma as_contract_ok G t fr c m : scope_ok E -> impl G t fr c m -> impl G t fr (e_as_contract c) (fun r => scoped true SContract (m r)).
Proof.
  intros HO (P1 & Hi). split; [exact P1|]. intros d B l code l' HC Hw. unfold e_as_contract in HC.
  destruct (c d B l) as [cc l1] eqn:Ec. pose proof (f_equal fst HC) as HC1; pose proof (f_equal snd HC) as HC2; cbn [fst snd] in HC1, HC2; clear HC; subst code l'.
  destruct (Hi _ _ _ _ _ Ec Hw) as (X1 & Hr). split; [exact X1|]. intros F r js ls k st sp Q rs Hmr HC HL HX HW. rewrite <- !app_assoc.
  unfold scoped in Hmr. destruct (chain_open SContract (shost st)) as [h1|] eqn:Ho; [|discriminate]. cbn [app].
  apply (open_run SContract st h1); [exact HO|exact Ho|]. destruct (m r h1) as [rs1|] eqn:Hm; [|discriminate].
  assert (HC' : ctx G B r F l ls (host_at st h1) sp fr) by (destruct HC; constructor; assumption).
  eapply (Hr F r _ ls k (host_at st h1) sp Q rs1 Hm HC' HL).
  - destruct rs1 as [v h2|v h2|cd]; [exact I|discriminate|]. injection Hmr as <-. exact HX.
  - intros v h ls1 st1 sp1 ws -> HG. destruct (chain_close SContract (is_ok v) h) as [h3|] eqn:Hcl; [|discriminate]. injection Hmr as <-.
    assert (Hh : shost st1 = h) by (destruct HG; assumption). subst h.
    apply (close_run SContract (is_ok v) st1 h3); [exact HO|exact Hcl|].
    apply (HW v h3 ls1 (host_at st1 h3) sp1 ws eq_refl). destruct HG as [HM G2 G3 G4]. constructor; [|exact G2|exact G3|reflexivity].
    destruct HM; constructor; assumption.
Qed.
End Call.
