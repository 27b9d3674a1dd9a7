(** * Correctness of emitted expression code: equality, tuples, sequences (proof support) *)
From Coq Require Import ZArith String List Bool Lia.
Import ListNotations.
From Verif Require Import Wasm Std StdEnv WasmLogic WasmTac Mem MemFacts Bytes Spec SpecBytes SpecUtf8 ArithProofs Clar Rep RepFacts Emit EmitFacts EmitProofs Equal EqualProofs
  CallProofs ArgProofs Ast SpecLang Lang Typing LangFacts LangBase LangCtl LangEarly LangMem.
Open Scope string_scope.
Open Scope list_scope.
Open Scope Z_scope.

Lemma bind_assoc {HS A B C} (m : M HS A) (f : A -> M HS B) (g : B -> M HS C) h : bind (bind m f) g h = bind m (fun x => bind (f x) g) h.
Proof. unfold bind. destruct (m h) as [[]|]; auto. Qed.

Lemma save_fresh t l is c l' : save_to_locals t l = (is, c, l') -> lwf l -> NoDup is /\ Forall (fun i => ~ live l i) is.
Proof.
  unfold save_to_locals. destruct (add_locals (rev (clar2wasm_ty t)) l) as [ns l1] eqn:EA. intros H Hw. injection H as <- <- <-.
  destruct (add_locals_ok _ _ _ _ EA Hw) as (A1 & A2 & A3 & A4 & A5 & A6). split; [apply NoDup_rev; auto|apply Forall_rev; auto].
Qed.

Lemma live_all l l' is : lext l l' -> Forall (live l) is -> Forall (live l') is.
Proof. intros H. apply Forall_impl. intros i. apply lext_live; auto. Qed.

(** locals changed by a comparison *)
Lemma lkeep_unhide l l4 ns x y : lext l l4 -> Forall (fun i => ~ live l i) ns -> lkeep (hide ns l4) x y -> lkeep l x y.
Proof.
  intros HX HN (H1 & H2). split; auto. intros i Hi. apply H2. apply live_hide. split; [eapply lext_live; eauto|].
  intros Hin. rewrite Forall_forall in HN. exact (HN _ Hin Hi).
Qed.

Lemma rep_list_app m P ts1 : forall vs1 ws1 ts2 vs2 ws2, rep_list m P ts1 vs1 ws1 -> rep_list m P ts2 vs2 ws2 ->
  rep_list m P (ts1 ++ ts2) (vs1 ++ vs2) (ws1 ++ ws2).
Proof. intros vs1 ws1 ts2 vs2 ws2 H H2. induction H; [exact H2|]. cbn [app]. rewrite <- app_assoc. constructor; auto. Qed.

Section Seq.
Context {HS : Type} {CH : chain HS} (E : env HS) (HE : has_std E) (rt : ty) (L : list (ty * value * Z)) (X : Z) (HX0 : 0 <= X).
Notation wp := (wp E).
Notation impl := (impl E rt L X).
Notation ctx := (ctx L X).
Notation sub_ok := (sub_ok E rt L X).
Notation impl_next := (impl_next E rt L X).
Notation impl_last := (impl_last E rt L X).
Notation impl_block := (impl_block E rt L X).
Notation impl_fr := (impl_fr E rt L X).
Notation impl_ext := (impl_ext E rt L X).
Ltac fr_of H := let P := fresh "P" in pose proof (impl_fr _ _ _ _ _ H) as P.
Ltac ext_of H E X := let W := fresh in
  match type of E with ?c ?d ?B ?l = _ =>
    assert (W : lwf l) by (assumption || (eapply lext_wf; eassumption));
    pose proof (impl_ext _ _ _ _ _ _ _ _ _ _ H E W) as X; clear W end.
Ltac lenl := repeat match goal with H : lext _ _ |- _ => apply lext_len in H | H : moved _ _ _ _ _ _ _ _ |- _ => apply m_ls, lkeep_len in H end; lia.

Lemma impl_next1 {A} G t fr c m d B l1 cc l2 : impl G t fr c m -> c d B l1 = (cc, l2) -> forall (F F1 : Z -> Prop) l ls ls1 st st1 sp sp1 n n1,
  moved l ls st sp n1 ls1 st1 sp1 -> n1 + fr <= n -> lext l l1 -> (forall a, F1 a -> F a) ->
  forall r, ctx G B r F1 l1 ls1 st1 sp1 fr ->
  forall (f : value -> M HS A) js k Q rs, bind (m r) f (shost st1) = Some rs -> exits rt d F l ls st sp n Q rs -> (llen l2 <= length ls)%nat ->
    (forall v h ls2 st2 sp2 ws, gives F1 t v h l1 ls1 st1 sp1 fr ls2 st2 sp2 ws -> moved l ls st sp (n1 + fr) ls2 st2 sp2 ->
       f v (shost st2) = Some rs -> length ws = length (clar2wasm_ty t) -> wp js (mkcfg ls2 (rev ws ++ k) st2) Q) ->
    wp (cc ++ js) (mkcfg ls1 k st1) Q.
Proof.
  intros HI HC F F1 l ls ls1 st st1 sp sp1 n n1 HM Hn Hx HF r H1 f js k Q rs Hb HX HL HW.
  eapply (impl_run _ _ _ _ _ _ _ _ _ _ _ _ _ _ HI HC (lext_wf _ _ Hx) _ F F1); eauto.
  intros v h ls2 st2 sp2 ws HG HM2 Hf. eapply HW; eauto.
  - rewrite (g_host _ _ _ _ _ _ _ _ _ _ _ _ _ HG). exact Hf.
  - symmetry; apply F2_len with (R := wtyped); eapply rep_typed; apply HG.
Qed.

(** ** Operands, evaluated in order *)
Lemma operands_ext G ss : forall d B l cs l', operands (map (@s_c HS) ss) d B l = (cs, l') -> Forall (sub_ok G) ss -> lwf l -> lext l l'.
Proof.
  induction ss as [|s ss IH]; intros d B l cs l' H Hs Hw; cbn in H.
  - injection H as <- <-. apply lext_refl; auto.
  - destruct (s_c s d B l) as [c l1] eqn:Ec. destruct (operands (map (@s_c HS) ss) d B l1) as [cs' l2] eqn:Eb. injection H as <- <-.
    inversion Hs as [|? ? H1 H2]; subst. unfold LangCtl.sub_ok in H1. ext_of H1 Ec Xc. eapply lext_trans; eauto. eapply IH; eauto. eapply lext_wf; eauto.
Qed.

Lemma operands_run {A} G B r F l ls st sp n d Q (rs : res HS A) : ctx G B r F l ls st sp n -> exits rt d F l ls st sp n Q rs ->
  forall ss l1 cs l2, operands (map (@s_c HS) ss) d B l1 = (cs, l2) -> Forall (sub_ok G) ss -> lext l l1 -> (llen l2 <= length ls)%nat ->
  forall ls1 st1 sp1 n1, moved l ls st sp n1 ls1 st1 sp1 -> n1 + sfr ss <= n ->
  forall (f : list value -> M HS A) js k, bind (mapM (map (fun s => s_m s r) ss)) f (shost st1) = Some rs ->
    (forall vs ls2 st2 sp2 ws, rep_list (smem st2) (vis F sp2) (map (@s_t HS) ss) vs ws -> Forall2 has_type (map (@s_t HS) ss) vs ->
       moved l1 ls1 st1 sp1 (sfr ss) ls2 st2 sp2 ->
       moved l ls st sp (n1 + sfr ss) ls2 st2 sp2 -> f vs (shost st2) = Some rs -> wp js (mkcfg ls2 (rev ws ++ k) st2) Q) ->
    wp (cs ++ js) (mkcfg ls1 k st1) Q.
Proof.
  intros HC HX. induction ss as [|s ss IH]; intros l1 cs l2 H Hs Xl HL ls1 st1 sp1 n1 HM Hn f js k Hm HW.
  - cbn in H. injection H as <- <-. cbn in Hm. cbn [app map sfr fold_right] in *. apply (HW [] ls1 st1 sp1 []); [constructor|constructor| | |exact Hm].
    + eapply moved_refl. eapply ctx_moved with (n' := 0); [exact HC|exact Xl|exact HM|lia].
    + rewrite Z.add_0_r. exact HM.
  - cbn [map operands] in H. destruct (s_c s d B l1) as [c l3] eqn:Ec. destruct (operands (map (@s_c HS) ss) d B l3) as [cs' l4] eqn:Eb.
    injection H as <- <-. inversion Hs as [|? ? H1 H2]; subst. unfold LangCtl.sub_ok in H1.
    ext_of H1 Ec Xc. assert (X3 : lext l l3) by (eapply lext_trans; eauto).
    pose proof (operands_ext _ _ _ _ _ _ _ Eb H2 (lext_wf _ _ Xc)) as Xd. fr_of H1. pose proof (sfr_nonneg _ _ _ _ _ _ H2) as P2.
    cbn [sfr fold_right] in Hn, HW. fold (sfr ss) in Hn, HW. rewrite <- app_assoc. cbn [map mapM] in Hm. rewrite bind_assoc in Hm.
    eapply (impl_next _ _ _ _ _ _ _ _ _ _ H1 Ec);
        [exact HC|exact HM|lia|exact Xl|eapply ctx_moved; [exact HC|exact Xl|exact HM|lia]|exact Hm|exact HX|lenl|].
    intros v h ls2 st2 sp2 ws HG HM2 Hm2 _. cbv beta in Hm2. rewrite bind_assoc in Hm2.
    eapply (IH l3 cs' l4 Eb H2 X3 HL ls2 st2 sp2 (n1 + s_fr s) HM2 ltac:(lia) _ js _ Hm2).
    intros vs ls3 st3 sp3 ws' Hr Ht HM3 HM4 Hf. rewrite app_assoc, <- rev_app_distr.
    apply (HW (v :: vs) ls3 st3 sp3 (ws ++ ws')).
    + cbn [map]. constructor; [|exact Hr]. eapply rep_moved; [exact HM3|apply HG].
    + cbn [map]. constructor; [apply HG|exact Ht].
    + eapply moved_trans; [exact Xc|apply HG|exact HM3].
    + rewrite Z.add_assoc. exact HM4.
    + exact Hf.
Qed.

(** ** [is-eq] *)
Lemma eq_ext G t vs ss : forall d B l cs l', eq_operands t vs (map (@s_c HS) ss) d B l = (cs, l') -> Forall (sub_ok G) ss -> ty_ok t -> equal_implemented t = true ->
  length vs = length (clar2wasm_ty t) -> NoDup vs -> Forall (live l) vs -> lwf l -> lext l l'.
Proof.
  induction ss as [|s ss IH]; intros d B l cs l' H Hs Hok Himp HLv HN Hlv Hw; cbn in H.
  - injection H as <- <-. apply lext_refl; auto.
  - destruct (s_c s d B l) as [c l1] eqn:Ec. destruct (save_to_locals t l1) as [[ns cn] l2] eqn:Es.
    destruct (wasm_equal t vs ns l2) as [ce l3] eqn:Ee. destruct (eq_operands t vs (map (@s_c HS) ss) d B l3) as [cr l4] eqn:Eb. injection H as <- <-.
    inversion Hs as [|? ? H1 H2]; subst. unfold LangCtl.sub_ok in H1. ext_of H1 Ec Xc.
    destruct (save_ok E _ _ _ _ _ Es (lext_wf _ _ Xc)) as (Xs & Hns & Hln & _). destruct (save_fresh _ _ _ _ _ Es (lext_wf _ _ Xc)) as (HN1 & HN2).
    assert (X2 : lext l l2) by (eapply lext_trans; eauto).
    destruct (wasm_equal_ok E t Hok Himp vs ns l2 ce l3 Ee (lext_wf _ _ Xs) (live_all _ _ _ X2 Hlv) Hns) as (Xe & _); auto.
    { apply NoDup_app_split. split; auto. split; auto. intros i Hi Hj. rewrite Forall_forall in HN2, Hlv. apply (HN2 _ Hj). eapply lext_live; eauto. }
    assert (X3 : lext l l3) by (eapply lext_trans; eauto). eapply lext_trans; [exact X3|].
    eapply IH; eauto; [eapply live_all; eauto|eapply lext_wf; eauto].
Qed.

Lemma b2z_and a b : ibin 32 m32 sgn32 And (b2z a) (b2z b) = Some (b2z (a && b)).
Proof. destruct a, b; reflexivity. Qed.

Lemma eq_run G B r F l ls st sp n d k js Q rs t v vs ws : ctx G B r F l ls st sp n -> exits rt d F l ls st sp n Q rs ->
  (forall v h ls2 st2 sp2 ws, rs = Done v h -> gives F TBool v h l ls st sp n ls2 st2 sp2 ws -> wp js (mkcfg ls2 (rev ws ++ k) st2) Q) ->
  ty_ok t -> equal_implemented t = true -> length vs = length (clar2wasm_ty t) -> NoDup vs -> has_type t v ->
  forall ss l1 cs l2, eq_operands t vs (map (@s_c HS) ss) d B l1 = (cs, l2) -> Forall (sub_ok G) ss -> Forall (fun s => s_t s = t) ss ->
  lext l l1 -> Forall (live l1) vs -> (llen l2 <= length ls)%nat ->
  forall ls1 st1 sp1 n1 acc, moved l ls st sp n1 ls1 st1 sp1 -> n1 + sfr ss <= n -> lvals ls1 vs ws -> rep (smem st1) (vis F sp1) t v ws ->
    bind (mapM (map (fun s => s_m s r) ss)) (fun xs => ret (CBool (acc && forallb (veqb v) xs))) (shost st1) = Some rs ->
    wp (cs ++ js) (mkcfg ls1 (VI32 (b2z acc) :: k) st1) Q.
Proof.
  intros HC HX HW Hok Himp HLv HN Hty. induction ss as [|s ss IH]; intros l1 cs l2 H Hs Hb Xl Hlv HL ls1 st1 sp1 n1 acc HM Hn HV Hr Hm.
  - cbn in H. injection H as <- <-. cbn in Hm. injection Hm as <-. cbn [map app]. cbn [sfr fold_right] in Hn. rewrite andb_true_r in *.
    apply (HW _ _ ls1 st1 sp1 [VI32 (b2z acc)] eq_refl). constructor; [eapply moved_more; eauto; lia|reflexivity|exact I|reflexivity].
  - cbn [map eq_operands] in H. destruct (s_c s d B l1) as [c l3] eqn:Ec. destruct (save_to_locals t l3) as [[ns cn] l4] eqn:Es.
    destruct (wasm_equal t vs ns l4) as [ce l5] eqn:Ee. destruct (eq_operands t vs (map (@s_c HS) ss) d B l5) as [cr l6] eqn:Eb. injection H as <- <-.
    inversion Hs as [|? ? H1 H2]; subst. inversion Hb as [|? ? H3 H4]; subst. unfold LangCtl.sub_ok in H1. ext_of H1 Ec Xc.
    destruct (save_ok E _ _ _ _ _ Es (lext_wf _ _ Xc)) as (Xs & Hns & Hln & Hsv). destruct (save_fresh _ _ _ _ _ Es (lext_wf _ _ Xc)) as (HN1 & HN2).
    assert (X2 : lext l1 l4) by (eapply lext_trans; eauto).
    assert (HD : forall i, In i vs -> ~ In i ns).
    { intros i Hi Hj. rewrite Forall_forall in HN2, Hlv. apply (HN2 _ Hj). eapply lext_live; eauto. }
    destruct (wasm_equal_ok E (s_t s) Hok Himp vs ns l4 ce l5 Ee (lext_wf _ _ Xs) (live_all _ _ _ X2 Hlv) Hns) as (Xe & Hcmp); auto.
    { apply NoDup_app_split. split; auto. }
    assert (X5 : lext l1 l5) by (eapply lext_trans; eauto). assert (X6 : lext l l5) by (eapply lext_trans; eauto).
    pose proof (eq_ext _ _ _ _ _ _ _ _ _ Eb H2 Hok Himp HLv HN (live_all _ _ _ X5 Hlv) (lext_wf _ _ X5)) as Xd.
    fr_of H1. pose proof (sfr_nonneg _ _ _ _ _ _ H2) as P2. cbn [sfr fold_right] in Hn. fold (sfr ss) in Hn.
    rewrite <- !app_assoc. cbn [map mapM] in Hm. rewrite bind_assoc in Hm.
    eapply (impl_next _ _ _ _ _ _ _ _ _ _ H1 Ec);
        [exact HC|exact HM|lia|exact Xl|eapply ctx_moved; [exact HC|exact Xl|exact HM|lia]|exact Hm|exact HX|lenl|].
    intros x h ls2 st2 sp2 wx HG HM2 Hm2 HLx. cbv beta in Hm2. rewrite bind_assoc in Hm2.
    eapply Hsv; [exact HLx|lenl|]. intros ls3 HK3 HV3.
    assert (HM1 : moved l1 ls1 st1 sp1 (s_fr s) ls2 st2 sp2) by apply HG.
    assert (HV2 : lvals ls2 vs ws) by (eapply lvals_keep; [apply HM1|exact Hlv|exact HV]).
    assert (HVs : lvals ls3 vs ws) by (eapply lvals_keep; [exact HK3|eapply live_all; [exact Xc|exact Hlv]|exact HV2]).
    eapply Hcmp; [apply lkeep_len in HK3; lenl|exact HVs|exact HV3|exact Hty|apply HG|eapply rep_moved; [exact HM1|exact Hr]|apply HG|].
    intros b ls4 Hb4 HK4.
    assert (HK : lkeep l1 ls2 ls4).
    { eapply lkeep_trans0; [eapply lkeep_weaken; [exact Xc|exact HK3]|]. eapply lkeep_unhide; [exact X2| |exact HK4].
      eapply Forall_impl; [|exact HN2]. intros i Hi Hj. apply Hi. eapply lext_live; eauto. }
    cbn [app]. eapply wp_b32; [apply b2z_and|].
    eapply (IH l5 cr l6 Eb H2 H4 X6 (live_all _ _ _ X5 Hlv) HL ls4 st2 sp2 (n1 + s_fr s)).
    + eapply moved_ls'; [exact HM2|exact Xl|exact HK].
    + lia.
    + eapply lvals_keep; [exact HK|exact Hlv|exact HV2].
    + eapply rep_moved; [exact HM1|exact Hr].
    + erewrite <- Hm2. unfold bind. destruct (mapM _ _) as [[xs h'| |]|]; auto. cbn. rewrite andb_assoc.
      replace b with (veqb v x); auto. destruct (veqb v x) eqn:Hv; symmetry.
      * apply Hb4. apply veqb_spec. exact Hv.
      * destruct b; auto. assert (v = x) by (apply Hb4; auto). apply veqb_spec in H. congruence.
Qed.

Lemma eq_ok G t fa a ma ss : ty_ok t -> equal_implemented t = true -> impl G t fa a ma -> Forall (sub_ok G) ss -> Forall (fun s => s_t s = t) ss ->
  impl G TBool (fa + sfr ss) (e_eq t a (map (@s_c HS) ss))
    (fun r => bind (ma r) (fun v => bind (mapM (map (fun s => s_m s r) ss)) (fun vs => ret (CBool (forallb (veqb v) vs))))).
Proof.
  intros Hok Himp HA Hs Hb. fr_of HA. pose proof (sfr_nonneg _ _ _ _ _ _ Hs) as P2. split; [lia|].
  intros d B l code l' HC Hw. unfold e_eq in HC. destruct (a d B l) as [ca l1] eqn:Ea. ext_of HA Ea Xa.
  destruct ss as [|s ss].
  - cbn [map] in HC. injection HC as <- <-. split; auto.
    intros F r js ls k st sp Q rs Hm HC HL HX HW. rewrite <- !app_assoc.
    eapply (impl_next _ _ _ _ _ _ _ _ _ _ HA Ea);
      [exact HC|eapply moved_refl; eauto|lia|apply lext_refl; auto|eapply ctx_less; [exact HC|lia]|exact Hm|exact HX|lenl|].
    intros v h ls1 st1 sp1 ws HG HM1 Hm1 HL1. eapply wp_drops; [exact HL1|]. cbn [app]. apply wp_const. cbn in Hm1. injection Hm1 as <-.
    apply (HW _ _ ls1 st1 sp1 [VI32 1] eq_refl). constructor; [eapply moved_more; eauto; lia|reflexivity|exact I|reflexivity].
  - remember (s :: ss) as ss0 eqn:Hss. assert (HC' : (let '(vs, cs, l) := save_to_locals t l1 in let '(cr, l) := eq_operands t vs (map (@s_c HS) ss0) d B l in (ca ++ cs ++ [Const (VI32 1)] ++ cr, l)) = (code, l')) by (subst ss0; exact HC).
    clear HC Hss s ss. destruct (save_to_locals t l1) as [[vs cs] l2] eqn:Es. destruct (eq_operands t vs (map (@s_c HS) ss0) d B l2) as [cr l3] eqn:Eb.
    injection HC' as <- <-. destruct (save_ok E _ _ _ _ _ Es (lext_wf _ _ Xa)) as (Xs & Hvs & Hln & Hsv). destruct (save_fresh _ _ _ _ _ Es (lext_wf _ _ Xa)) as (HN1 & HN2).
    pose proof (eq_ext _ _ _ _ _ _ _ _ _ Eb Hs Hok Himp Hln HN1 Hvs (lext_wf _ _ Xs)) as Xd. assert (X2 : lext l l2) by (eapply lext_trans; eauto).
    split; [eapply lext_trans; eauto|]. intros F r js ls k st sp Q rs Hm HC HL HX HW. rewrite <- !app_assoc.
    eapply (impl_next _ _ _ _ _ _ _ _ _ _ HA Ea);
      [exact HC|eapply moved_refl; eauto|lia|apply lext_refl; auto|eapply ctx_less; [exact HC|lia]|exact Hm|exact HX|lenl|].
    intros v h ls1 st1 sp1 ws HG HM1 Hm1 HL1. eapply Hsv; [exact HL1|lenl|]. intros ls2 HK HV.
    cbn [app]. apply wp_const.
    eapply (eq_run G B r F l ls st sp (fa + sfr ss0) d k js Q rs t v vs ws HC HX HW Hok Himp Hln HN1 (g_type _ _ _ _ _ _ _ _ _ _ _ _ _ HG) ss0 l2 cr l3 Eb Hs Hb X2 Hvs HL
      ls2 st1 sp1 (0 + fa) true); [eapply moved_ls'; [exact HM1|exact Xa|exact HK]|lia|exact HV|apply HG|exact Hm1].
Qed.

(** ** Reserving space on the call stack *)
Definition minus (F : Z -> Prop) (a n : Z) : Z -> Prop := fun x => F x /\ ~ (a <= x < a + n).

Lemma reserve_run t rp vl l o size cc l1 : create_call_stack_local t rp vl l = (o, size, cc, l1) -> lwf l ->
  lext l l1 /\ live l1 o /\ ~ live l o /\
  forall G B r F ls st sp n js k Q, ctx G B r F l ls st sp n -> 0 <= size <= n -> (llen l1 <= length ls)%nat ->
   (forall ls1 st1, shost st1 = shost st -> smem st1 = smem st -> moved l ls st sp size ls1 st1 (sp + size) -> nth_error ls1 o = Some (VI32 sp) ->
      ctx G B r (minus F sp size) l1 ls1 st1 (sp + size) (n - size) -> wp js (mkcfg ls1 k st1) Q) ->
   wp (cc ++ js) (mkcfg ls k st) Q.
Proof.
  unfold create_call_stack_local. destruct (add_local T32 l) as [o1 l2] eqn:Eo. intros H Hw.
  remember (call_stack_size t rp vl) as sz. injection H as <- <- <- <-.
  destruct (add_ok _ _ _ _ Eo Hw) as (A1 & A2 & A3). split; [exact A1|]. split; [exact A2|]. split; [exact A3|].
  intros G B r F ls st sp n js k Q HC Hs HL HW. cbn [app]. pose proof (c_room _ _ _ _ _ _ _ _ _ _ _ HC) as Hrm. pose proof (c_lo _ _ _ _ _ _ _ _ _ _ _ HC) as Hlo.
  eapply wp_gget; [eapply c_sp; exact HC|]. apply wp_ltee. apply wp_const. rewrite (Z.mod_small sz) by lia.
  eapply wp_b32; [cbn [ibin]; rewrite Z.mod_small by lia; reflexivity|]. apply wp_gset.
  assert (HM : moved l ls st sp sz (lset ls o1 (VI32 sp)) (with_glob st (gset (sglob st) "stack-pointer" (VI32 (sp + sz)))) (sp + sz)).
  { constructor; [apply lkeep_lset; exact A3|apply below_refl| | |lia].
    - cbn [sglob with_glob]. eapply gget_set. eapply c_sp; exact HC.
    - intros g Hg. cbn [sglob with_glob]. apply gget_set_other. exact Hg. }
  apply HW; [reflexivity|reflexivity|exact HM| |].
  - apply lset_same. destruct A2. lia.
  - eapply ctx_move; [exact HC|exact A1|apply HM|reflexivity|reflexivity| | |apply HM|apply HM|lia|lia].
    + intros a (H1 & H2). split; [lia|]. split; auto. lia.
    + intros a Ha. split; [|lia]. eapply c_up; [exact HC|lia].
Qed.

(** after the reservation and whatever followed *)
Lemma ctx_minus G B r F l l' ls ls' (st st' : store HS) sp sp' n n1 n' sz : ctx G B r F l ls st sp n -> lext l l' -> moved l ls st sp n1 ls' st' sp' ->
  n1 + n' <= n -> sp + sz <= sp' -> ctx G B r (minus F sp sz) l' ls' st' sp' n'.
Proof.
  intros HC Hx [M1 (M2 & M3) M4 M6 M5] Hn Hs. eapply ctx_move; [exact HC|exact Hx|exact M1|exact M2| | | |exact M4|exact M6| |lia].
  - intros a (Ha & _). auto.
  - intros a (Ha & HF). split; [lia|]. split; [exact HF|lia].
  - intros a Ha. split; [|lia]. eapply c_up; [exact HC|lia].
  - destruct HC. lia.
Qed.

Lemma minus_sub F a n x : minus F a n x -> F x.
Proof. intros H; apply H. Qed.
End Seq.
