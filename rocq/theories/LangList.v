(** * Correctness of emitted expression code: lists and other sequences (proof support) *)
From Coq Require Import ZArith String List Bool Lia.
Import ListNotations.
From Verif Require Import Wasm Std StdEnv WasmLogic WasmTac Mem MemFacts Bytes Spec SpecBytes SpecUtf8 ArithProofs Clar Rep RepFacts Emit EmitFacts EmitProofs Equal EqualProofs
  CallProofs ArgProofs Ast SpecLang Lang Typing LangFacts LangBase LangCtl LangEarly LangMem LangSeq.
Open Scope string_scope.
Open Scope list_scope.
Open Scope Z_scope.

Section Lst.
Context {HS : Type} {CH : chain HS} (E : env HS) (HE : has_std E) (rt : ty) (L : list (ty * value * Z)) (X : Z) (HX0 : 0 <= X).
Notation wp := (wp E).
Notation impl := (impl E rt L X).
Notation ctx := (ctx L X).
Notation sub_ok := (sub_ok E rt L X).
Notation impl_next := (impl_next E rt L X).
Notation impl_next1 := (impl_next1 E rt L X).
Notation impl_last := (impl_last E rt L X).
Notation impl_block := (impl_block E rt L X).
Notation impl_fr := (impl_fr E rt L X).
Notation impl_ext := (impl_ext E rt L X).
Ltac fr_of H := let P := fresh "P" in pose proof (impl_fr _ _ _ _ _ H) as P.
Ltac ext_of H E X := let W := fresh in
  match type of E with ?c ?d ?B ?l = _ =>
    assert (W : lwf l) by (assumption || (eapply lext_wf; eassumption));
    pose proof (impl_ext _ _ _ _ _ _ _ _ _ _ H E W) as X; clear W end.
Ltac lenl := repeat match goal with H : lext _ _ |- _ => apply lext_len in H | H : moved _ _ _ _ _ _ _ _ |- _ => apply m_ls, lkeep_len in H end; lia.

(** a step that only writes above the stack pointer of the start *)
Lemma moved_write l ls st sp n ls1 st1 sp1 a k m' : moved l ls st sp n ls1 st1 sp1 -> only_changes (smem st1) m' a k -> sp <= a ->
  moved (HS := HS) l ls st sp n ls1 (with_mem st1 m') sp1.
Proof.
  intros [A1 A2 A3 A4 A5] H Hs. constructor; auto. eapply below_trans; [|exact A2|eapply below_only; eauto]. lia.
Qed.

Lemma ctx_msize G B r F l ls (st : store HS) sp n n1 ls1 st1 sp1 : ctx G B r F l ls st sp n -> moved l ls st sp n1 ls1 st1 sp1 -> msize (smem st1) = msize (smem st).
Proof. intros _ [A1 (A2 & A2') A3 A4 A5]. exact A2. Qed.

(** ** [list] *)
Lemma elems_ext G t o ss : forall off d B l cs l', list_elems t o off (map (@s_c HS) ss) d B l = (cs, l') -> Forall (sub_ok G) ss -> live l o -> lwf l -> lext l l'.
Proof.
  induction ss as [|s ss IH]; intros off d B l cs l' H Hs Ho Hw; cbn in H.
  - injection H as <- <-. apply lext_refl; auto.
  - destruct (s_c s d B l) as [c l1] eqn:Ec. destruct (write_to_memory t o off l1) as [cw l2] eqn:Ew.
    destruct (list_elems t o (off + get_type_size t) (map (@s_c HS) ss) d B l2) as [cr l3] eqn:Eb. injection H as <- <-.
    inversion Hs as [|? ? H1 H2]; subst. unfold LangCtl.sub_ok in H1. ext_of H1 Ec Xc.
    destruct (write_memory_ok E t _ _ _ _ _ Ew (lext_wf _ _ Xc) (lext_live _ _ _ Xc Ho)) as (Xw & _).
    assert (X2 : lext l l2) by (eapply lext_trans; eauto). eapply lext_trans; [exact X2|]. eapply IH; eauto; [eapply lext_live; eauto|eapply lext_wf; eauto].
Qed.



Lemma elems_run {A} G B r (F : Z -> Prop) l ls (st : store HS) sp n d Q (rs : res HS A) k nl t o a0 size :
  ctx G B r F l ls st sp n -> exits rt d F l ls st sp n Q rs -> ~ live l o -> a0 = sp -> 0 <= size -> msize (smem st) < m32 ->
  forall ss l1 off cs l2, list_elems t o off (map (@s_c HS) ss) d B l1 = (cs, l2) -> Forall (sub_ok G) ss -> Forall (fun s => s_t s = t) ss ->
  lext l l1 -> live l1 o -> (llen l2 <= length ls)%nat -> 0 <= off -> off + Z.of_nat (length ss) * get_type_size t <= size ->
  forall ls1 st1 sp1 n1 vs, moved l ls st sp n1 ls1 st1 sp1 -> n1 + sfr ss <= n -> a0 + size <= sp1 -> nth_error ls1 o = Some (VI32 a0) ->
    ctx G B r (minus F a0 size) l1 ls1 st1 sp1 (sfr ss) ->
    rep (smem st1) (por (vis (minus F a0 size) sp1) (seg a0 off)) (TList nl t) (CList vs) [VI32 a0; VI32 off] -> Forall (has_type t) vs ->
  forall (f : list value -> M HS A) js, bind (mapM (map (fun s => s_m s r) ss)) f (shost st1) = Some rs ->
    (forall vs' ls2 st2 sp2 off', off' = off + Z.of_nat (length ss) * get_type_size t -> length vs' = length ss ->
       rep (smem st2) (vis F sp2) (TList nl t) (CList (vs ++ vs')) [VI32 a0; VI32 off'] -> Forall (has_type t) (vs ++ vs') ->
       moved l ls st sp (n1 + sfr ss) ls2 st2 sp2 -> nth_error ls2 o = Some (VI32 a0) -> f vs' (shost st2) = Some rs -> wp js (mkcfg ls2 k st2) Q) ->
    wp (cs ++ js) (mkcfg ls1 k st1) Q.
Proof.
  intros HC HX Hno Ha0 Hsz Hms. induction ss as [|s ss IH]; intros l1 off cs l2 H Hs Hb Xl Ho HL Hoff Hend ls1 st1 sp1 n1 vs HM Hn Hsp Hol HC1 Hr Hty f js Hm HW.
  - cbn in H. injection H as <- <-. cbn [app]. apply (HW [] ls1 st1 sp1 off); [cbn [length] in *; lia|reflexivity| | | |exact Hol|exact Hm].
    + rewrite app_nil_r. eapply rep_weaken; [|exact Hr]. intros x [(H1 & H2)|H1]; [split; [exact H1|apply H2]|].
      unfold seg in H1. cbn [length] in Hend. split; [lia|]. eapply c_up; [exact HC|lia].
    + rewrite app_nil_r. exact Hty.
    + cbn [sfr fold_right]. rewrite Z.add_0_r. exact HM.
  - cbn [map list_elems] in H. destruct (s_c s d B l1) as [c l3] eqn:Ec. destruct (write_to_memory t o off l3) as [cw l4] eqn:Ew.
    destruct (list_elems t o (off + get_type_size t) (map (@s_c HS) ss) d B l4) as [cr l5] eqn:Eb. injection H as <- <-.
    inversion Hs as [|? ? H1 H2]; subst. inversion Hb as [|? ? H3 H4]; subst. unfold LangCtl.sub_ok in H1. ext_of H1 Ec Xc.
    destruct (write_memory_ok E _ _ _ _ _ _ Ew (lext_wf _ _ Xc) (lext_live _ _ _ Xc Ho)) as (Xw & Hst).
    assert (X4 : lext l1 l4) by (eapply lext_trans; eauto). assert (X4' : lext l l4) by (eapply lext_trans; eauto).
    pose proof (elems_ext _ _ _ _ _ _ _ _ _ _ Eb H2 (lext_live _ _ _ X4 Ho) (lext_wf _ _ X4)) as Xd.
    fr_of H1. pose proof (sfr_nonneg _ _ _ _ _ _ H2) as P2. cbn [sfr fold_right] in Hn, HC1, HW. fold (sfr ss) in Hn, HC1, HW.
    cbn [length] in Hend, HW. rewrite Nat2Z.inj_succ, Z.mul_succ_l in Hend, HW. pose proof (size_nonneg (s_t s)) as Hp.
    assert (Hp2 : 0 <= Z.of_nat (length ss) * get_type_size (s_t s)) by nia.
    rewrite <- !app_assoc. cbn [map mapM] in Hm. rewrite bind_assoc in Hm.
    eapply (impl_next1 _ _ _ _ _ _ _ _ _ _ H1 Ec F (minus F sp size)); [exact HM| |exact Xl|apply minus_sub|eapply ctx_less; [exact HC1|lia]|exact Hm|exact HX|lenl|]; [lia|].
    intros v h ls2 st2 sp2 ws HG HM2 Hm2 HLv. cbv beta in Hm2. rewrite bind_assoc in Hm2.
    assert (HM1 : moved l1 ls1 st1 sp1 (s_fr s) ls2 st2 sp2) by apply HG.
    assert (Hol2 : nth_error ls2 o = Some (VI32 sp)) by (rewrite (lkeep_get _ _ _ _ (m_ls _ _ _ _ _ _ _ _ HM1)); auto).
    pose proof (ctx_msize _ _ _ _ _ _ _ _ _ _ _ _ _ HC HM2) as Hmz. pose proof (c_lo _ _ _ _ _ _ _ _ _ _ _ HC) as Hlo.
    pose proof (m_rng _ _ _ _ _ _ _ _ HM1) as Hr1. pose proof (c_room _ _ _ _ _ _ _ _ _ _ _ HC1) as Hrm. pose proof (ctx_msize _ _ _ _ _ _ _ _ _ _ _ _ _ HC HM) as Hmz1.
    eapply Hst; [exact Hol2|lenl|eapply rep_typed; apply HG|exact Hlo|exact Hoff|split; [|lia]|].
    { rewrite Hmz. rewrite Hmz1 in Hrm. lia. }
    intros ls3 m3 HK3 Ho3 Hw3.
    pose proof (moved_write _ _ _ _ _ _ _ _ _ _ _ (moved_ls' _ _ _ _ _ _ _ _ _ _ HM2 (lext_trans _ _ _ Xl Xc) HK3) Ho3 ltac:(lia)) as HM3.
    assert (Hz3 : msize m3 = msize (smem st2)) by apply Ho3.
    assert (HR1 : rep m3 (por (vis (minus F sp size) sp2) (seg sp off)) (TList nl (s_t s)) (CList vs) [VI32 sp; VI32 off]).
    { eapply rep_frame; [exact Hz3| | |]; [|intros x Hx; exact Hx|].
      - intros x Hx. apply Ho3. destruct Hx as [(Hx1 & Hx2 & Hx3)|Hx]; [lia|unfold seg in Hx; lia].
      - destruct HM1 as [_ (B1 & B2) _ _ B3]. eapply rep_frame; [exact B1| | |exact Hr].
        + intros x [(Hx1 & _)|Hx]; apply B2; [lia|]. unfold seg in Hx. lia.
        + intros x [(Hx1 & Hx2)|Hx]; [left; split; [lia|exact Hx2]|right; exact Hx]. }
    assert (HR2 : rep m3 (por (vis (minus F sp size) sp2) (seg (sp + off) (get_type_size (s_t s)))) (TList nl (s_t s)) (CList [v]) [VI32 (sp + off); VI32 (get_type_size (s_t s))]).
    { eapply single_rep; [exact Hw3| |lia|lia]. apply blank_rep. eapply rep_frame; [exact Hz3| | |apply HG]; [|intros x Hx; exact Hx].
      intros x (Hx1 & Hx2 & Hx3). apply Ho3. lia. }
    assert (HR : rep m3 (por (vis (minus F sp size) sp2) (seg sp (off + get_type_size (s_t s)))) (TList nl (s_t s)) (CList (vs ++ [v])) [VI32 sp; VI32 (off + get_type_size (s_t s))]).
    { eapply (join_rep _ _ _ (CList vs) (CList [v]) _ _ off (get_type_size (s_t s))); [reflexivity| | |reflexivity|lia].
      - eapply rep_weaken; [|exact HR1]. intros x [Hx|Hx]; [left; exact Hx|right; unfold seg in *; lia].
      - eapply rep_weaken; [|exact HR2]. intros x [Hx|Hx]; [left; exact Hx|right; unfold seg in *; lia]. }
    eapply (IH l4 (off + get_type_size (s_t s)) cr l5 Eb H2 H4 X4' (lext_live _ _ _ X4 Ho) HL ltac:(lia) ltac:(lia) ls3 (with_mem st2 m3) sp2 (n1 + s_fr s) (vs ++ [v]) HM3 ltac:(lia) ltac:(lia)).
    + rewrite (lkeep_get _ _ _ _ HK3 (lext_live _ _ _ Xc Ho)). exact Hol2.
    + destruct HM1 as [B0 (B1 & B2) B4 B5 B3]. eapply ctx_move; [exact HC1|exact X4| | | | | |exact B4|exact B5|lia|lia].
      * eapply lkeep_trans; [exact Xc|exact B0|exact HK3].
      * cbn [smem with_mem]. congruence.
      * intros x (Hx1 & Hx2 & Hx3). cbn [smem with_mem]. destruct Ho3 as (_ & Ho3). rewrite Ho3 by lia. apply B2. lia.
      * intros x (Hx1 & Hx2). split; [lia|exact Hx2].
      * intros x Hx. split; [|lia]. eapply c_up; [exact HC|lia].
    + exact HR.
    + apply Forall_app. split; [exact Hty|]. constructor; [apply HG|constructor].
    + exact Hm2.
    + intros vs' ls4 st4 sp4 off' Ho4 HL4 Hr4 Ht4 HM4 Hol4 Hf. rewrite <- app_assoc in Hr4, Ht4. cbn [app] in Hr4, Ht4.
      apply (HW (v :: vs') ls4 st4 sp4 off'); [lia|cbn [length]; lia|exact Hr4|exact Ht4|rewrite Z.add_assoc; exact HM4|exact Hol4|exact Hf].
Qed.

Lemma list_ok G n t ss : ty_ok (TList n t) -> Z.of_nat (length ss) <= n -> Forall (sub_ok G) ss -> Forall (fun s => s_t s = t) ss ->
  impl G (TList n t) (call_stack_size (TList n t) false true + sfr ss) (e_list n t (map (@s_c HS) ss))
    (fun r => bind (mapM (map (fun s => s_m s r) ss)) (fun vs => ret (CList vs))).
Proof.
  intros Hok Hn Hs Hb. pose proof (sfr_nonneg _ _ _ _ _ _ Hs) as P2. pose proof (inmem_nonneg (TList n t) false Hok) as P1.
  cbn [call_stack_size] in *. pose proof (size_nonneg t) as P3.
  assert (Hcs : get_type_in_memory_size (TList n t) false = n * get_type_size t) by (cbn [get_type_in_memory_size]; lia).
  split; [lia|]. intros d B l code l' HC Hw. unfold e_list in HC.
  destruct (create_call_stack_local (TList n t) false true l) as [[[o sz] cc] l1] eqn:Ec.
  destruct (list_elems t o 0 (map (@s_c HS) ss) d B l1) as [ce l2] eqn:Ee. rewrite map_length in HC. injection HC as <- <-.
  assert (Hsz : sz = get_type_in_memory_size (TList n t) false) by (unfold create_call_stack_local in Ec; cbn [call_stack_size] in Ec; destruct (add_local T32 l); congruence).
  destruct (reserve_run E L X HX0 _ _ _ _ _ _ _ _ Ec Hw) as (Xc & Lo & No & Hres).
  pose proof (elems_ext _ _ _ _ _ _ _ _ _ _ Ee Hs Lo (lext_wf _ _ Xc)) as Xe. split; [eapply lext_trans; eauto|].
  intros F r js ls k st sp Q rs Hm HC HL HX HW. rewrite <- !app_assoc.
  pose proof (c_lo _ _ _ _ _ _ _ _ _ _ _ HC) as Hlo. pose proof (c_room _ _ _ _ _ _ _ _ _ _ _ HC) as Hrm.
  eapply Hres; [exact HC|lia|lenl|]. intros ls1 st1 Hh Hmem HM1 Hol HC1.
  eapply (elems_run G B r F l ls st sp _ d Q rs k n t o sp sz HC HX No eq_refl ltac:(lia) ltac:(lia) ss l1 0 ce l2 Ee Hs Hb Xc Lo HL ltac:(lia)
    ltac:(rewrite Hsz, Hcs; nia) ls1 st1 (sp + sz) sz [] HM1 ltac:(lia) ltac:(lia) Hol).
  - eapply ctx_less; [exact HC1|lia].
  - apply empty_rep; [lia|]. rewrite Hmem. lia.
  - constructor.
  - rewrite Hh. exact Hm.
  - intros vs ls2 st2 sp2 off Hoff HLv Hr Hty HM2 Hol2 Hf. cbn [app] in Hr, Hty |- *. eapply wp_lget; [exact Hol2|]. apply wp_const.
    cbn in Hf. injection Hf as <-. rewrite Z.add_0_l in Hoff. rewrite <- Hoff.
    apply (HW _ _ ls2 st2 sp2 [VI32 sp; VI32 off] eq_refl). constructor; [eapply moved_more; [exact HM2|lia]|exact Hr| |reflexivity].
    cbn [has_type]. split; [lia|exact Hty].
Qed.

(** one more element at the end *)
Lemma push_elem m m3 (P : Z -> Prop) n t vs v a off ws : rep m (por P (seg a off)) (TList n t) (CList vs) [VI32 a; VI32 off] -> rep m P t v ws ->
  only_changes m m3 (a + off) (get_type_size t) -> words_at m3 (a + off) (blank t ws) -> (forall x, P x -> ~ seg (a + off) (get_type_size t) x) ->
  msize m < m32 -> a + off < m32 -> 0 <= off ->
  rep m3 (por P (seg a (off + get_type_size t))) (TList n t) (CList (vs ++ [v])) [VI32 a; VI32 (off + get_type_size t)].
Proof.
  intros H1 H2 (H3 & H3') H4 H5 H6 H7 H8. pose proof (size_nonneg t) as Hp.
  assert (HR1 : rep m3 (por P (seg a off)) (TList n t) (CList vs) [VI32 a; VI32 off]).
  { eapply rep_frame; [exact H3| | |exact H1]; [|intros x Hx; exact Hx]. intros x Hx. apply H3'. destruct Hx as [Hx|Hx]; [apply H5 in Hx|]; unfold seg in Hx; lia. }
  assert (HR2 : rep m3 (por P (seg (a + off) (get_type_size t))) (TList n t) (CList [v]) [VI32 (a + off); VI32 (get_type_size t)]).
  { eapply single_rep; [exact H4| |lia|lia]. apply blank_rep. eapply rep_frame; [exact H3| | |exact H2]; [|intros x Hx; exact Hx].
    intros x Hx. apply H3'. apply H5 in Hx. unfold seg in Hx. lia. }
  eapply (join_rep _ _ _ (CList vs) (CList [v]) _ _ off (get_type_size t)); [reflexivity| | |reflexivity|lia].
  - eapply rep_weaken; [|exact HR1]. intros x [Hx|Hx]; [left; exact Hx|right; unfold seg in *; lia].
  - eapply rep_weaken; [|exact HR2]. intros x [Hx|Hx]; [left; exact Hx|right; unfold seg in *; lia].
Qed.

(** a copy into reserved space *)
Lemma copy_in m (P : Z -> Prop) t v o d len : is_seq t = true -> rep m P t v [VI32 o; VI32 len] -> (forall x, P x -> ~ seg d len x) ->
  0 <= d -> d + len <= msize m -> d < m32 -> rep (mcopy m d o len) (por P (seg d len)) t v [VI32 d; VI32 len].
Proof.
  intros Ht Hr HP H1 H2 H3. eapply copy_rep; [exact Ht|exact Hr|apply msize_mcopy| |exact H1|exact H2|exact H3|].
  - intros x Hx. apply rd_mcopy_other. apply HP in Hx. unfold seg in Hx. lia.
  - intros i Hi. rewrite rd_mcopy. destruct (Z.leb_spec d (d + i)), (Z.ltb_spec (d + i) (d + len)); try lia. cbn [andb]. f_equal. lia.
Qed.

Lemma nth_lset_ne ls i j v : i <> j -> nth_error (lset ls i v) j = nth_error ls j.
Proof. intros H. apply lset_other. congruence. Qed.

Lemma list_pair m P n t v ws : rep m P (TList n t) v ws -> exists vs o, v = CList vs /\ ws = [VI32 o; VI32 (Z.of_nat (length vs) * get_type_size t)].
Proof.
  destruct v; cbn [rep]; try contradiction. intros (o & -> & _). exists vs, o. rewrite words_size_ty. auto.
Qed.

Lemma append_ok G n t fa fb a b ma mb : ty_ok (TList n t) -> impl G (TList (n - 1) t) fa a ma -> impl G t fb b mb ->
  impl G (TList n t) (call_stack_size (TList n t) false true + fa + fb) (e_append n t a b)
    (fun r => bind (ma r) (fun v => bind (mb r) (fun w => match v with CList vs => ret (CList (vs ++ [w])) | _ => bad end))).
Proof.
  intros Hok HA HB. fr_of HA. fr_of HB. pose proof (inmem_nonneg (TList n t) false Hok) as P1.
  cbn [call_stack_size] in *. pose proof (size_pos t ltac:(apply Hok)) as P3.
  assert (Hcs : get_type_in_memory_size (TList n t) false = n * get_type_size t) by (cbn [get_type_in_memory_size]; lia).
  split; [lia|]. intros d B l code l' HC Hw. unfold e_append in HC.
  destruct (create_call_stack_local (TList n t) false true l) as [[[w sz] cc] l1] eqn:Ec.
  destruct (a d B l1) as [ca l2] eqn:Ea. destruct (add_local T32 l2) as [sl l3] eqn:Esl. destruct (add_local T32 l3) as [ne l4] eqn:Ene.
  destruct (b d B l4) as [cb l5] eqn:Eb. destruct (write_to_memory t w 0 l5) as [cw l6] eqn:Ew. injection HC as <- <-.
  assert (Hsz : sz = get_type_in_memory_size (TList n t) false) by (unfold create_call_stack_local in Ec; cbn [call_stack_size] in Ec; destruct (add_local T32 l); congruence).
  destruct (reserve_run E L X HX0 _ _ _ _ _ _ _ _ Ec Hw) as (Xc & Lw & Nw & Hres). ext_of HA Ea Xa.
  destruct (add_ok _ _ _ _ Esl (lext_wf _ _ Xa)) as (Xsl & Lsl & Nsl). destruct (add_ok _ _ _ _ Ene (lext_wf _ _ Xsl)) as (Xne & Lne & Nne).
  ext_of HB Eb Xb.
  assert (X12 : lext l l2) by (eapply lext_trans; eauto). assert (X24 : lext l2 l4) by (eapply lext_trans; eauto). assert (X04 : lext l l4) by (eapply lext_trans; eauto).
  assert (X14 : lext l1 l4) by (eapply lext_trans; eauto). assert (X15 : lext l1 l5) by (eapply lext_trans; eauto).
  destruct (write_memory_ok E _ _ _ _ _ _ Ew (lext_wf _ _ Xb) (lext_live _ _ _ X15 Lw)) as (Xw & Hst).
  assert (X05 : lext l l5) by (eapply lext_trans; eauto).
  split; [eapply lext_trans; eauto|].
  assert (Dw1 : w <> sl) by (intros ->; apply Nsl; exact (lext_live _ _ _ Xa Lw)).
  assert (Dw2 : w <> ne) by (intros ->; apply Nne; exact (lext_live _ _ _ (lext_trans _ _ _ Xa Xsl) Lw)).
  assert (Dsn : sl <> ne) by (intros ->; apply Nne; exact Lsl).
  intros F r js ls k st sp Q rs Hm HC HL HX HW. rewrite <- !app_assoc.
  pose proof (c_lo _ _ _ _ _ _ _ _ _ _ _ HC) as Hlo. pose proof (c_room _ _ _ _ _ _ _ _ _ _ _ HC) as Hrm.
  assert (HLl : (llen l6 <= length ls)%nat) by exact HL.
  eapply Hres; [exact HC|lia|lenl|]. intros ls1 st1 Hh Hmem HM1 Hol HC1. cbn [app]. rewrite <- ?app_assoc.
  eapply wp_lget; [exact Hol|]. eapply wp_lget; [exact Hol|]. rewrite <- Hh in Hm.
  eapply (impl_next1 _ _ _ _ _ _ _ _ _ _ HA Ea F (minus F sp sz)); [exact HM1| |exact Xc|apply minus_sub|eapply ctx_less; [exact HC1|lia]|exact Hm|exact HX|lenl|]; [lia|].
  intros v h ls2 st2 sp2 ws HG HM2 Hm2 HLv. cbv beta in Hm2.
  assert (HMa : moved l1 ls1 st1 (sp + sz) fa ls2 st2 sp2) by apply HG.
  assert (Hol2 : nth_error ls2 w = Some (VI32 sp)) by (rewrite (lkeep_get _ _ _ _ (m_ls _ _ _ _ _ _ _ _ HMa)); auto).
  pose proof (g_rep _ _ _ _ _ _ _ _ _ _ _ _ _ HG) as Hrv. pose proof (g_type _ _ _ _ _ _ _ _ _ _ _ _ _ HG) as Htv.
  destruct (list_pair _ _ _ _ _ _ Hrv) as (vs & off & -> & ->). cbn [has_type] in Htv. destruct Htv as (Htl & Htv).
  set (len := Z.of_nat (length vs) * get_type_size t) in *.
  assert (Hlen : 0 <= len /\ len + get_type_size t <= sz) by (rewrite Hsz, Hcs; unfold len; nia).
  pose proof (ctx_msize _ _ _ _ _ _ _ _ _ _ _ _ _ HC HM2) as Hmz. pose proof (m_rng _ _ _ _ _ _ _ _ HMa) as Hr1.
  destruct (rep_seq _ _ (TList (n - 1) t) _ _ eq_refl Hrv) as (o1 & E1 & A1 & A2 & A3 & A4). cbn [seq_len unit_size] in E1, A2, A3, A4. fold len in E1, A2, A3, A4. injection E1 as <-.
  cbn [rev app]. apply wp_ltee.
  assert (HLn : length ls2 = length ls) by (apply lkeep_len with (l := l); apply HM2).
  assert (Isl : (sl < length ls2)%nat) by (destruct Lsl as (Lsl & _); apply lext_len in Xne, Xb, Xw; lia).
  assert (Iw : (w < length ls2)%nat) by (destruct Lw as (Lw & _); apply lext_len in X15, Xw; lia).
  eapply wp_lget; [rewrite nth_lset_ne by auto; exact Hol2|]. eapply wp_lget; [apply lset_same; exact Isl|].
  eapply wp_b32; [cbn [ibin]; rewrite Z.mod_small by lia; reflexivity|]. apply wp_lset.
  eapply wp_lget; [rewrite nth_lset_ne by auto; apply lset_same; exact Isl|]. apply wp_const.
  eapply wp_b32; [cbn [ibin]; rewrite Z.mod_small by lia; reflexivity|]. apply wp_ltee. apply wp_const. apply wp_divu32; [lia|]. apply wp_lset.
  apply wp_memcopy; [lia|rewrite Hmz; lia|].
  set (ls3 := lset _ ne _). set (m3 := mcopy (smem st2) sp off len).
  assert (HK3 : lkeep l ls2 ls3).
  { unfold ls3. eapply lkeep_trans0; [eapply lkeep_trans0; [eapply lkeep_trans0|]|]; apply lkeep_lset; intros Hlive.
    - apply Nsl. exact (lext_live _ _ _ X12 Hlive). - exact (Nw Hlive). - apply Nsl. exact (lext_live _ _ _ X12 Hlive).
    - apply Nne. exact (lext_live _ _ _ (lext_trans _ _ _ X12 Xsl) Hlive). }
  assert (HM3 : moved l ls st sp (sz + fa) ls3 (with_mem st2 m3) sp2).
  { eapply moved_write; [eapply moved_ls; [exact HM2|exact HK3]|apply only_mcopy|lia]. }
  assert (Hw3 : nth_error ls3 w = Some (VI32 (sp + len))).
  { unfold ls3. rewrite !nth_lset_ne by auto. apply lset_same. rewrite lset_len. exact Iw. }
  assert (Hs3 : nth_error ls3 sl = Some (VI32 (len + get_type_size t))).
  { unfold ls3. rewrite nth_lset_ne by auto. apply lset_same. rewrite !lset_len. exact Isl. }
  assert (HR3 : rep m3 (por (vis (minus F sp sz) sp2) (seg sp len)) (TList n t) (CList vs) [VI32 sp; VI32 len]).
  { eapply copy_in; [reflexivity| | |lia|lia|lia].
    - eapply (widens_rep _ _ (TList (n - 1) t)); [|exact Hrv]. cbn [widens]. rewrite widens_refl, andb_true_r. apply Z.leb_le. lia.
    - intros x (_ & _ & Hx) Hx2. unfold seg in Hx2. lia. }
  assert (HC3 : ctx G B r (minus F sp sz) l4 ls3 (with_mem st2 m3) sp2 fb) by (eapply ctx_minus; [exact HC|exact X04|exact HM3|lia|lia]).
  rewrite <- !app_assoc. eapply (impl_next1 _ _ _ _ _ _ _ _ _ _ HB Eb F (minus F sp sz)); [exact HM3| |exact X04|apply minus_sub|exact HC3|exact Hm2|exact HX|lenl|]; [lia|].
  intros x h4 ls4 st4 sp4 wx HG4 HM4 Hm4 HLx. cbn in Hm4. injection Hm4 as <-.
  assert (HMb : moved l4 ls3 (with_mem st2 m3) sp2 fb ls4 st4 sp4) by apply HG4. pose proof (m_rng _ _ _ _ _ _ _ _ HMb) as Hr4.
  pose proof (ctx_msize _ _ _ _ _ _ _ _ _ _ _ _ _ HC HM4) as Hmz4. 
  assert (Hw4 : nth_error ls4 w = Some (VI32 (sp + len))) by (rewrite (lkeep_get _ _ _ _ (m_ls _ _ _ _ _ _ _ _ HMb)); [exact Hw3|exact (lext_live _ _ _ X14 Lw)]).
  assert (Hs4 : nth_error ls4 sl = Some (VI32 (len + get_type_size t))) by (rewrite (lkeep_get _ _ _ _ (m_ls _ _ _ _ _ _ _ _ HMb)); [exact Hs3|exact (lext_live _ _ _ Xne Lsl)]).
  assert (HR4 : rep (smem st4) (por (vis (minus F sp sz) sp4) (seg sp len)) (TList n t) (CList vs) [VI32 sp; VI32 len]).
  { destruct HMb as [_ (B1 & B2) _ _ B3]. eapply rep_frame; [exact B1| | |exact HR3].
    - intros y [(Hy & _)|Hy]; apply B2; [lia|]. unfold seg in Hy. lia.
    - intros y [(Hy & Hy2)|Hy]; [left; split; [lia|exact Hy2]|right; exact Hy]. }
  eapply (Hst _ ls4 _ st4 (sp + len) wx); [exact Hw4|lenl|eapply rep_typed; apply HG4|lia|lia|lia|].
  intros ls5 m5 HK5 Ho5 Hw5. rewrite Z.add_0_r in Ho5, Hw5. cbn [app].
  eapply wp_lget; [rewrite (lkeep_get _ _ _ _ HK5); [exact Hs4|exact (lext_live _ _ _ (lext_trans _ _ _ Xne Xb) Lsl)]|].
  apply (HW _ (shost st4) ls5 (with_mem st4 m5) sp4 [VI32 sp; VI32 (len + get_type_size t)] eq_refl). constructor.
  - eapply moved_more; [eapply moved_write; [eapply moved_ls'; [exact HM4|exact X05|exact HK5]|exact Ho5|lia]|lia].
  - cbn [smem with_mem]. eapply rep_weaken; [|eapply push_elem; [exact HR4|apply HG4|exact Ho5|exact Hw5| |lia|lia|lia]].
    + intros y [(Hy & Hy2)|Hy]; [split; [exact Hy|apply Hy2]|]. unfold seg in Hy. split; [lia|]. eapply c_up; [exact HC|lia].
    + intros y (_ & _ & Hy) Hy2. unfold seg in Hy2. lia.
  - cbn [has_type]. split; [rewrite app_length; cbn [length]; lia|]. apply Forall_app. split; [exact Htv|]. constructor; [apply HG4|constructor].
  - reflexivity.
Qed.
End Lst.
