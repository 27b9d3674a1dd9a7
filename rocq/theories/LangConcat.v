(** * Correctness of emitted expression code: concat, len, element-at?, as-max-len? (proof support) *)
From Coq Require Import ZArith String List Bool Lia.
Import ListNotations.
From Verif Require Import ReadProofs Wasm Std StdEnv WasmLogic WasmTac Mem MemFacts Bytes Spec SpecBytes SpecUtf8 ArithProofs Clar Rep RepFacts Emit EmitFacts EmitProofs Equal EqualProofs
  CallProofs ArgProofs Ast SpecLang Lang Typing LangFacts LangBase LangCtl LangEarly LangMem LangSeq LangList.
Open Scope string_scope.
Open Scope list_scope.
Open Scope Z_scope.

Lemma seq_size t : is_seq t = true -> call_stack_size t false true = seq_max t * unit_size t.
Proof. destruct t; try discriminate; intros _; cbn [call_stack_size get_type_in_memory_size seq_max unit_size]; lia. Qed.
Lemma seq_type_len t v : is_seq t = true -> has_type t v -> 0 <= seq_len v <= seq_max t.
Proof. destruct t; try discriminate; intros _; destruct v; cbn [has_type seq_len seq_max]; try contradiction; intros (H & _); lia. Qed.
Lemma seq_concat_len v w c : seq_concat v w = Some c -> seq_len c = seq_len v + seq_len w.
Proof. destruct v; try discriminate; destruct w; try discriminate; cbn [seq_concat]; intros H; injection H as <-; cbn [seq_len]; rewrite app_length; lia. Qed.
Lemma seq_concat_type t v w c : is_seq t = true -> has_type t v -> has_type t w -> seq_concat v w = Some c -> seq_len c <= seq_max t -> has_type t c.
Proof.
  destruct t; try discriminate; intros _; destruct v; cbn [has_type]; try contradiction; intros (Hv & Hv'); destruct w; cbn [has_type]; try contradiction; intros (Hw & Hw');
    cbn [seq_concat]; intros H; injection H as <-; cbn [seq_len seq_max]; intros Hl; cbn [has_type]; (split; [exact Hl|apply Forall_app; auto]).
Qed.

Lemma elem_nth m P t vs : forall a i v, rep_elems m P t vs a -> nth_error vs i = Some v -> exists ws, words_at m (a + Z.of_nat i * get_type_size t) ws /\ rep m P t v ws.
Proof.
  induction vs as [|x vs IH]; intros a [|i] v He Hn; cbn [nth_error] in Hn; try discriminate; cbn [rep_elems] in He; destruct He as (H1 & H2).
  - injection Hn as <-. rewrite Z.mul_0_l, Z.add_0_r. exact H1.
  - rewrite words_size_ty in H2. destruct (IH _ _ _ H2 Hn) as (ws & W1 & W2). exists ws. split; auto.
    rewrite Nat2Z.inj_succ, Z.mul_succ_l. replace (a + (Z.of_nat i * get_type_size t + get_type_size t)) with (a + get_type_size t + Z.of_nat i * get_type_size t) by lia. exact W1.
Qed.
Lemma holds_nth m a bs i b : holds m a bs -> nth_error bs i = Some b -> holds m (a + Z.of_nat i) [b].
Proof.
  intros H Hn. apply nth_error_split in Hn. destruct Hn as (l1 & l2 & -> & <-). apply holds_app in H. destruct H as (_ & H). eapply holds_byte1; exact H.
Qed.
Lemma holds_nth4 m a cs i c : holds m a (flat_map (be_bytes 4) cs) -> nth_error cs i = Some c -> holds m (a + Z.of_nat i * 4) (be_bytes 4 c).
Proof.
  intros H Hn. apply nth_error_split in Hn. destruct Hn as (l1 & l2 & -> & <-). rewrite flat_map_app in H. apply holds_app in H. destruct H as (_ & H).
  rewrite utf8_len in H. cbn [flat_map] in H. apply holds_app in H. apply H.
Qed.
Lemma nth_some {A} (l : list A) i : 0 <= i < Z.of_nat (length l) -> exists x, nth_error l (Z.to_nat i) = Some x.
Proof. intros H. destruct (nth_error l (Z.to_nat i)) eqn:E; eauto. apply nth_error_None in E. lia. Qed.
Lemma b2z_or a b : ibin 32 m32 sgn32 Or (b2z a) (b2z b) = Some (b2z (a || b)).
Proof. destruct a, b; reflexivity. Qed.

Section Cat.
Context {HS : Type} {CH : chain HS} (E : env HS) (HE : has_std E) (rt : ty) (L : list (ty * value * Z)) (X : Z) (HX0 : 0 <= X).
Notation wp := (wp E).
Notation impl := (impl E rt L X).
Notation ctx := (ctx L X).
Notation sub_ok := (sub_ok E rt L X).
Notation impl_next := (impl_next E rt L X).
Notation impl_next1 := (impl_next1 E rt L X).
Notation impl_last := (impl_last E rt L X).
Notation impl_block := (impl_block E rt L X).
Notation impl_fr := (impl_fr E rt L X).
Notation impl_ext := (impl_ext E rt L X).
Ltac fr_of H := let P := fresh "P" in pose proof (impl_fr _ _ _ _ _ H) as P.
Ltac ext_of H E X := let W := fresh in
  match type of E with ?c ?d ?B ?l = _ =>
    assert (W : lwf l) by (assumption || (eapply lext_wf; eassumption));
    pose proof (impl_ext _ _ _ _ _ _ _ _ _ _ H E W) as X; clear W end.
Ltac lenl := repeat match goal with H : lext _ _ |- _ => apply lext_len in H | H : moved _ _ _ _ _ _ _ _ |- _ => apply m_ls, lkeep_len in H end; lia.

(** ** [concat] *)
Lemma seq_widens ta t : is_seq t = true -> widens ta t = true -> is_seq ta = true.
Proof. destruct t; try discriminate; intros _ H; destruct ta; cbn in *; congruence. Qed.
Lemma concat_ok G t ta tb fa fb a b ma mb : is_seq t = true -> ty_ok t -> impl G ta fa a ma -> impl G tb fb b mb ->
  widens ta t = true -> widens tb t = true -> seq_max ta + seq_max tb <= seq_max t ->
  impl G t (call_stack_size t false true + fa + fb) (e_concat t a b)
    (fun r => bind (ma r) (fun v => bind (mb r) (fun w => of_opt (seq_concat v w)))).
Proof.
  intros Ht Hok HA HB Wa Wb Hmax. fr_of HA. fr_of HB. rewrite (seq_size _ Ht). pose proof (unit_nonneg t) as P3.
  assert (P1 : 0 <= seq_max t) by (destruct t; try discriminate; cbn [ty_ok seq_max] in *; lia).
  assert (P1' : 0 <= seq_max t * unit_size t) by nia.
  split; [lia|]. intros d B l code l' HC Hw. unfold e_concat in HC.
  destruct (create_call_stack_local t false true l) as [[[o sz] cc] l1] eqn:Ec.
  destruct (a d B l1) as [ca l2] eqn:Ea. destruct (add_local T32 l2) as [i1 l3] eqn:E1.
  destruct (b d B l3) as [cb l4] eqn:Eb. destruct (add_local T32 l4) as [i2 l5] eqn:E2. destruct (add_local T32 l5) as [i3 l6] eqn:E3. injection HC as <- <-.
  assert (Hsz : sz = seq_max t * unit_size t) by (rewrite <- seq_size by exact Ht; unfold create_call_stack_local in Ec; destruct (add_local T32 l); congruence).
  destruct (reserve_run E L X HX0 _ _ _ _ _ _ _ _ Ec Hw) as (Xc & Lo & No & Hres). ext_of HA Ea Xa.
  destruct (add_ok _ _ _ _ E1 (lext_wf _ _ Xa)) as (Xi1 & L1 & N1). ext_of HB Eb Xb.
  destruct (add_ok _ _ _ _ E2 (lext_wf _ _ Xb)) as (Xi2 & L2 & N2). destruct (add_ok _ _ _ _ E3 (lext_wf _ _ Xi2)) as (Xi3 & L3 & N3).
  assert (X02 : lext l l2) by (eapply lext_trans; eauto). assert (X03 : lext l l3) by (eapply lext_trans; eauto). assert (X04 : lext l l4) by (eapply lext_trans; eauto).
  assert (X05 : lext l l5) by (eapply lext_trans; eauto).
  assert (X13 : lext l1 l3) by (eapply lext_trans; eauto). assert (X14 : lext l1 l4) by (eapply lext_trans; eauto). 
  split; [eapply lext_trans; eauto|].
  assert (D1 : o <> i1) by (intros ->; apply N1; exact (lext_live _ _ _ Xa Lo)).
  assert (D2 : o <> i2) by (intros ->; apply N2; exact (lext_live _ _ _ X14 Lo)).
  assert (D3 : i1 <> i2) by (intros ->; apply N2; exact (lext_live _ _ _ Xb L1)).
  intros F r js ls k st sp Q rs Hm HC HL HX HW. rewrite <- !app_assoc.
  pose proof (c_lo _ _ _ _ _ _ _ _ _ _ _ HC) as Hlo. pose proof (c_room _ _ _ _ _ _ _ _ _ _ _ HC) as Hrm.
  eapply Hres; [exact HC|lia|lenl|]. intros ls1 st1 Hh Hmem HM1 Hol HC1. cbn [app]. rewrite <- ?app_assoc.
  eapply wp_lget; [exact Hol|]. rewrite <- Hh in Hm.
  eapply (impl_next1 _ _ _ _ _ _ _ _ _ _ HA Ea F (minus F sp sz)); [exact HM1| |exact Xc|apply minus_sub|eapply ctx_less; [exact HC1|lia]|exact Hm|exact HX|lenl|]; [lia|].
  intros v h ls2 st2 sp2 ws HG HM2 Hm2 HLv. cbv beta in Hm2.
  assert (HMa : moved l1 ls1 st1 (sp + sz) fa ls2 st2 sp2) by apply HG.
  assert (Hol2 : nth_error ls2 o = Some (VI32 sp)) by (rewrite (lkeep_get _ _ _ _ (m_ls _ _ _ _ _ _ _ _ HMa)); auto).
  pose proof (widens_rep _ _ _ _ _ _ Wa (g_rep _ _ _ _ _ _ _ _ _ _ _ _ _ HG)) as Hrv. pose proof (g_type _ _ _ _ _ _ _ _ _ _ _ _ _ HG) as Htva. pose proof (widens_has_type _ _ _ Wa Htva) as Htv.
  pose proof (seq_type_len _ _ (seq_widens _ _ Ht Wa) Htva) as Hlva.
  destruct (rep_seq _ _ _ _ _ Ht Hrv) as (ov & -> & A1 & A2 & A3 & A4). pose proof (seq_type_len _ _ Ht Htv) as Hlv.
  set (nv := seq_len v * unit_size t) in *. assert (Hnv : nv <= sz) by (rewrite Hsz; unfold nv; nia).
  pose proof (ctx_msize _ _ _ _ _ _ _ _ _ _ _ _ _ _ _ HC HM2) as Hmz. pose proof (m_rng _ _ _ _ _ _ _ _ HMa) as Hr1.
  assert (HLn : length ls2 = length ls) by (apply lkeep_len with (l := l); apply HM2).
  assert (I1 : (i1 < length ls2)%nat) by (destruct L1 as (L1 & _); apply lext_len in Xb, Xi2, Xi3; lia).
  assert (Io : (o < length ls2)%nat) by (destruct Lo as (Lo & _); apply lext_len in X14, Xi2, Xi3; lia).
  cbn [rev app]. apply wp_ltee. apply wp_memcopy; [lia|rewrite Hmz; lia|].
  eapply wp_lget; [rewrite nth_lset_ne by auto; exact Hol2|]. eapply wp_lget; [apply lset_same; exact I1|].
  eapply wp_b32; [cbn [ibin]; rewrite Z.mod_small by lia; reflexivity|]. 
  set (ls3 := lset ls2 i1 _). set (m3 := mcopy (smem st2) sp ov nv).
  assert (HM3 : moved l ls st sp (sz + fa) ls3 (with_mem st2 m3) sp2).
  { eapply moved_write; [eapply moved_ls; [exact HM2|]|apply only_mcopy|lia]. apply lkeep_lset. intros Hlive. apply N1. exact (lext_live _ _ _ X02 Hlive). }
  assert (Ho3 : nth_error ls3 o = Some (VI32 sp)) by (unfold ls3; rewrite nth_lset_ne by auto; exact Hol2).
  assert (H13 : nth_error ls3 i1 = Some (VI32 nv)) by (apply lset_same; exact I1).
  assert (HR3 : rep m3 (por (vis (minus F sp sz) sp2) (seg sp nv)) t v [VI32 sp; VI32 nv]).
  { eapply copy_in; [exact Ht|exact Hrv| |lia|lia|lia]. intros x (_ & _ & Hx) Hx2. unfold seg in Hx2. lia. }
  assert (HC3 : ctx G B r (minus F sp sz) l3 ls3 (with_mem st2 m3) sp2 fb) by (eapply ctx_minus; [exact HC|exact X03|exact HM3|lia|lia]).
  rewrite <- ?app_assoc. eapply (impl_next1 _ _ _ _ _ _ _ _ _ _ HB Eb F (minus F sp sz)); [exact HM3| |exact X03|apply minus_sub|exact HC3|exact Hm2|exact HX|lenl|]; [lia|].
  intros x h4 ls4 st4 sp4 wx HG4 HM4 Hm4 HLx.
  assert (HMb : moved l3 ls3 (with_mem st2 m3) sp2 fb ls4 st4 sp4) by apply HG4. pose proof (m_rng _ _ _ _ _ _ _ _ HMb) as Hr4.
  pose proof (ctx_msize _ _ _ _ _ _ _ _ _ _ _ _ _ _ _ HC HM4) as Hmz4.
  assert (Ho4 : nth_error ls4 o = Some (VI32 sp)) by (rewrite (lkeep_get _ _ _ _ (m_ls _ _ _ _ _ _ _ _ HMb)); [exact Ho3|exact (lext_live _ _ _ X13 Lo)]).
  assert (H14 : nth_error ls4 i1 = Some (VI32 nv)) by (rewrite (lkeep_get _ _ _ _ (m_ls _ _ _ _ _ _ _ _ HMb)); [exact H13|exact L1]).
  pose proof (widens_rep _ _ _ _ _ _ Wb (g_rep _ _ _ _ _ _ _ _ _ _ _ _ _ HG4)) as Hrx. pose proof (g_type _ _ _ _ _ _ _ _ _ _ _ _ _ HG4) as Htxa. pose proof (widens_has_type _ _ _ Wb Htxa) as Htx.
  pose proof (seq_type_len _ _ (seq_widens _ _ Ht Wb) Htxa) as Hlxa.
  destruct (rep_seq _ _ _ _ _ Ht Hrx) as (ox & -> & B1 & B2 & B3 & B4). pose proof (seq_type_len _ _ Ht Htx) as Hlx.
  set (nx := seq_len x * unit_size t) in *.
  cbv beta in Hm4. destruct (seq_concat v x) as [c|] eqn:Hcat; [|cbv [of_opt bad] in Hm4; discriminate Hm4]. unfold of_opt, ret in Hm4. injection Hm4 as <-.
  pose proof (seq_concat_len _ _ _ Hcat) as Hlc. assert (Hfit : seq_len c <= seq_max t) by lia. assert (Hnx : nv + nx <= sz) by (rewrite Hsz; unfold nv, nx; clear - Hlc Hfit P3; nia).
  assert (HR4 : rep (smem st4) (por (vis (minus F sp sz) sp4) (seg sp nv)) t v [VI32 sp; VI32 nv]).
  { destruct HMb as [_ (C1 & C2) _ _ C3]. eapply rep_frame; [exact C1| | |exact HR3].
    - intros y [(Hy & _)|Hy]; apply C2; [lia|]. unfold seg in Hy. lia.
    - intros y [(Hy & Hy2)|Hy]; [left; split; [lia|exact Hy2]|right; exact Hy]. }
  assert (HL4 : length ls4 = length ls2) by (rewrite (lkeep_len _ _ _ (m_ls _ _ _ _ _ _ _ _ HMb)); apply lset_len).
  assert (I2 : (i2 < length ls4)%nat) by (destruct L2 as (L2 & _); apply lext_len in Xi3; lia).
  cbn [rev app]. apply wp_ltee. apply wp_memcopy; [lia|rewrite Hmz4; lia|].
  set (m5 := mcopy (smem st4) (sp + nv) ox nx).
  eapply wp_lget; [rewrite nth_lset_ne by auto; exact Ho4|]. eapply wp_lget; [rewrite nth_lset_ne by auto; exact H14|]. eapply wp_lget; [apply lset_same; exact I2|].
  eapply wp_b32; [cbn [ibin]; rewrite Z.mod_small by lia; reflexivity|]. apply wp_ltee.
  assert (HR5 : rep m5 (por (vis (minus F sp sz) sp4) (seg sp (nv + nx))) t c [VI32 sp; VI32 (nv + nx)]).
  { eapply join_rep; [exact Ht| | |exact Hcat|unfold m5; rewrite msize_mcopy; lia].
    - eapply rep_frame; [apply msize_mcopy| | |exact HR4].
      + intros y Hy. apply rd_mcopy_other. destruct Hy as [(_ & _ & Hy)|Hy]; unfold seg in *; lia.
      + intros y [Hy|Hy]; [left; exact Hy|right; unfold seg in *; lia].
    - eapply rep_weaken; [|eapply copy_in; [exact Ht|exact Hrx| |lia|lia|lia]].
      + intros y [Hy|Hy]; [left; exact Hy|right; unfold seg in *; lia].
      + intros y (_ & _ & Hy) Hy2. unfold seg in Hy2. lia. }
  apply (HW c (shost st4) _ (with_mem st4 m5) sp4 [VI32 sp; VI32 (nv + nx)] eq_refl). constructor.
  - eapply moved_more; [eapply moved_write; [eapply moved_ls; [exact HM4|]|apply only_mcopy|lia]|lia].
    eapply lkeep_trans0; apply lkeep_lset; intros Hlive; [apply N2; exact (lext_live _ _ _ X04 Hlive)|apply N3; exact (lext_live _ _ _ X05 Hlive)].
  - cbn [smem with_mem]. eapply rep_weaken; [|exact HR5].
    intros y [(Hy & Hy2)|Hy]; [split; [exact Hy|apply Hy2]|]. unfold seg in Hy. split; [lia|]. eapply c_up; [exact HC|lia].
  - eapply seq_concat_type; [exact Ht|exact Htv|exact Htx|exact Hcat|exact Hfit].
  - reflexivity.
Qed.

(** ** Number of elements *)
Lemma wp_extu a is ls k (st : store HS) Q : wp is (mkcfg ls (VI64 a :: k) st) Q -> wp (ExtU :: is) (mkcfg ls (VI32 a :: k) st) Q.
Proof. intros H2. eapply wp_step1; [reflexivity|reflexivity|exact H2]. Qed.
Lemma wp_wrap a is ls k (st : store HS) Q : wp is (mkcfg ls (VI32 (a mod m32) :: k) st) Q -> wp (Wrap :: is) (mkcfg ls (VI64 a :: k) st) Q.
Proof. intros H2. eapply wp_step1; [reflexivity|reflexivity|exact H2]. Qed.
Lemma wp_select32 a b c is ls k (st : store HS) Q : wp is (mkcfg ls (VI32 (if c =? 0 then b else a) :: k) st) Q -> wp (Select :: is) (mkcfg ls (VI32 c :: VI32 b :: VI32 a :: k) st) Q.
Proof. intros H2. eapply wp_step1; [reflexivity|reflexivity|exact H2]. Qed.
Lemma wp_b64 o a b r is ls k (st : store HS) Q : ibin 64 m64 sgn64 o a b = Some r -> wp is (mkcfg ls (VI64 r :: k) st) Q -> wp (B64 o :: is) (mkcfg ls (VI64 b :: VI64 a :: k) st) Q.
Proof. intros H1 H2. eapply wp_step1; [reflexivity| |exact H2]. cbn [step cstack]. rewrite H1. reflexivity. Qed.

Lemma count_ok t n js ls k (st : store HS) Q : is_seq t = true -> ty_ok t -> 0 <= n -> n * unit_size t < m32 ->
  wp js (mkcfg ls (VI32 n :: k) st) Q -> wp (count_code t ++ js) (mkcfg ls (VI32 (n * unit_size t) :: k) st) Q.
Proof.
  intros Ht Hok Hn Hb HW. destruct t; try discriminate; cbn [count_code unit_size app] in *; try (rewrite Z.mul_1_r; exact HW).
  - apply wp_const. eapply wp_b32; [cbn [ibin]; reflexivity|].
    change (2 ^ (2 mod 32)) with 4. rewrite Z.div_mul by lia. exact HW.
  - apply wp_const. cbn [ty_ok] in Hok. pose proof (size_pos t ltac:(apply Hok)). apply wp_divu32; [lia|]. rewrite Z.div_mul by lia. exact HW.
Qed.

Lemma small_words n : 0 <= n < m64 -> [VI64 (n mod 2 ^ 64); VI64 (n / 2 ^ 64 mod 2 ^ 64)] = [VI64 n; VI64 0].
Proof. intros H. change (2 ^ 64) with m64. rewrite (Z.mod_small n) by lia. rewrite (Z.div_small n) by lia. reflexivity. Qed.

Lemma len_ok G t fa a ma : is_seq t = true -> ty_ok t -> impl G t fa a ma ->
  impl G TUInt fa (e_len t a) (fun r => bind (ma r) (fun v => ret (CUInt (seq_len v)))).
Proof.
  intros Ht Hok HA. fr_of HA. split; [lia|]. intros d B l code l' HC Hw. unfold e_len in HC.
  destruct (a d B l) as [ca l1] eqn:Ea. destruct (add_local T32 l1) as [ln l2] eqn:El. injection HC as <- <-.
  ext_of HA Ea Xa. destruct (add_ok _ _ _ _ El (lext_wf _ _ Xa)) as (Xl & Ll & Nl). split; [eapply lext_trans; eauto|].
  intros F r js ls k st sp Q rs Hm HC HL HX HW. rewrite <- !app_assoc.
  eapply (impl_next _ _ _ _ _ _ _ _ _ _ HA Ea);
    [exact HC|eapply moved_refl; eauto|lia|apply lext_refl; auto|eapply ctx_less; [exact HC|lia]|exact Hm|exact HX|lenl|].
  intros v h ls1 st1 sp1 ws HG HM1 Hm1 HL1. cbn in Hm1. injection Hm1 as <-.
  pose proof (g_type _ _ _ _ _ _ _ _ _ _ _ _ _ HG) as Htv. pose proof (seq_type_len _ _ Ht Htv) as Hlv.
  destruct (rep_seq _ _ _ _ _ Ht (g_rep _ _ _ _ _ _ _ _ _ _ _ _ _ HG)) as (ov & -> & A1 & A2 & A3 & A4).
  assert (Hmx : seq_max t <= max_value_size) by (destruct t; try discriminate; cbn [ty_ok seq_max] in *; lia). unfold max_value_size in Hmx.
  assert (I1 : (ln < length ls1)%nat) by (destruct Ll as (Ll & _); apply m_ls, lkeep_len in HM1; lia).
  cbn [rev app]. apply wp_lset. apply wp_drop. eapply wp_lget; [apply lset_same; exact I1|]. rewrite <- ?app_assoc.
  apply count_ok; [exact Ht|exact Hok|lia|lia|]. cbn [app]. apply wp_extu. apply wp_const.
  apply (HW _ _ _ st1 sp1 [VI64 (seq_len v); VI64 0] eq_refl). constructor.
  - eapply moved_more; [eapply moved_ls'; [exact HM1|exact Xa|apply lkeep_lset; exact Nl]|lia].
  - cbn [rep]. symmetry. apply small_words. lia.
  - cbn [has_type]. lia.
  - reflexivity.
Qed.

Lemma with_max_type n t t' v : is_seq t = true -> has_type t v -> seq_len v <= n -> widens (with_max n t) t' = true -> has_type t' v.
Proof.
  intros Ht Hv Hn Hwd. eapply widens_has_type; [exact Hwd|]. destruct t; try discriminate; destruct v; cbn [has_type with_max seq_len] in *; try contradiction; destruct Hv; auto.
Qed.
Lemma with_max_rep n t t' v m P ws : is_seq t = true -> rep m P t v ws -> widens (with_max n t) t' = true -> rep m P t' v ws.
Proof. intros Ht Hv Hwd. eapply widens_rep; [exact Hwd|]. destruct t; try discriminate; exact Hv. Qed.

Lemma max_len_ok G t t' n fa a ma : is_seq t = true -> ty_ok t -> 0 <= n < m32 -> widens (with_max n t) t' = true -> impl G t fa a ma ->
  impl G (TOpt t') fa (e_max_len t a n) (fun r => bind (ma r) (fun v => ret (if seq_len v <=? n then CSome v else CNone))).
Proof.
  intros Ht Hok Hn Hwd HA. fr_of HA. split; [lia|]. intros d B l code l' HC Hw. unfold e_max_len in HC.
  destruct (a d B l) as [ca l1] eqn:Ea. destruct (add_local T32 l1) as [ln l2] eqn:El. destruct (add_local T32 l2) as [o l3] eqn:Eo. injection HC as <- <-.
  ext_of HA Ea Xa. destruct (add_ok _ _ _ _ El (lext_wf _ _ Xa)) as (Xl & Ll & Nl). destruct (add_ok _ _ _ _ Eo (lext_wf _ _ Xl)) as (Xo & Lo & No).
  assert (X02 : lext l l2) by (eapply lext_trans; eauto). split; [eapply lext_trans; eauto|].
  assert (D : ln <> o) by (intros ->; exact (No Ll)).
  intros F r js ls k st sp Q rs Hm HC HL HX HW. rewrite <- ?app_assoc. cbn [app]. apply wp_const. apply wp_const. rewrite <- ?app_assoc.
  eapply (impl_next _ _ _ _ _ _ _ _ _ _ HA Ea);
    [exact HC|eapply moved_refl; eauto|lia|apply lext_refl; auto|eapply ctx_less; [exact HC|lia]|exact Hm|exact HX|lenl|].
  intros v h ls1 st1 sp1 ws HG HM1 Hm1 HL1. cbn in Hm1. injection Hm1 as <-.
  pose proof (g_type _ _ _ _ _ _ _ _ _ _ _ _ _ HG) as Htv. pose proof (seq_type_len _ _ Ht Htv) as Hlv. pose proof (g_rep _ _ _ _ _ _ _ _ _ _ _ _ _ HG) as Hrv.
  destruct (rep_seq _ _ _ _ _ Ht Hrv) as (ov & -> & A1 & A2 & A3 & A4).
  assert (Hmx : seq_max t <= max_value_size) by (destruct t; try discriminate; cbn [ty_ok seq_max] in *; lia). unfold max_value_size in Hmx.
  assert (HLn := lkeep_len _ _ _ (m_ls _ _ _ _ _ _ _ _ HM1)).
  assert (I1 : (ln < length ls1)%nat) by (destruct Ll as (Ll & _); apply lext_len in Xo; lia).
  assert (I2 : (o < length (lset ls1 ln (VI32 (seq_len v * unit_size t))))%nat) by (destruct Lo as (Lo & _); rewrite lset_len; lia).
  cbn [rev app]. apply wp_lset. apply wp_lset. eapply wp_lget; [rewrite nth_lset_ne by auto; apply lset_same; exact I1|]. rewrite <- ?app_assoc.
  apply count_ok; [exact Ht|exact Hok|lia|lia|]. cbn [app]. apply wp_extu. apply wp_const. apply wp_const. apply wp_drop. apply wp_r64. apply wp_select32.
  eapply wp_lget; [apply lset_same; exact I2|]. eapply wp_lget; [rewrite nth_lset_ne by auto; apply lset_same; exact I1|].
  rewrite (Z.mod_small n) by lia. cbn [irel].
  assert (HM2 : moved l ls st sp fa (lset (lset ls1 ln (VI32 (seq_len v * unit_size t))) o (VI32 ov)) st1 sp1).
  { eapply moved_more; [eapply moved_ls; [exact HM1|]|lia]. eapply lkeep_trans0; apply lkeep_lset; intros Hlive; [apply Nl; exact (lext_live _ _ _ Xa Hlive)|apply No; exact (lext_live _ _ _ X02 Hlive)]. }
  destruct (Z.leb_spec (seq_len v) n) as [Hle|Hgt].
  - destruct (Z.ltb_spec n (seq_len v)); [lia|]. cbn [b2z Z.eqb].
    apply (HW _ _ _ st1 sp1 [VI32 1; VI32 ov; VI32 (seq_len v * unit_size t)] eq_refl). constructor; [exact HM2| |cbn [has_type]; eapply with_max_type; [exact Ht|exact Htv|exact Hle|exact Hwd]|reflexivity].
    cbn [rep]. eexists. split; [reflexivity|]. eapply with_max_rep; [exact Ht|exact Hrv|exact Hwd].
  - destruct (Z.ltb_spec n (seq_len v)); [|lia]. cbn [b2z Z.eqb].
    apply (HW _ _ _ st1 sp1 [VI32 0; VI32 ov; VI32 (seq_len v * unit_size t)] eq_refl). constructor; [exact HM2| |exact I|reflexivity].
    cbn [rep]. eexists. split; [reflexivity|]. pose proof (rep_typed _ _ _ _ _ Hrv) as HT.
    rewrite (widens_wasm _ _ Hwd). destruct t; try discriminate; exact HT.
Qed.

(** ** [element-at?] *)
Definition index_code (t : ty) : list instr :=
  match t with TList _ te => [Const (VI64 (get_type_size te)); B64 Mul] | TUtf8 _ => [Const (VI64 2); B64 Shl] | _ => [] end.
Lemma index_ok t i js ls k (st : store HS) Q : is_seq t = true -> 0 <= i < m64 ->
  wp js (mkcfg ls (VI64 ((i * unit_size t) mod m64) :: k) st) Q -> wp (index_code t ++ js) (mkcfg ls (VI64 i :: k) st) Q.
Proof.
  intros Ht Hi HW. destruct t; try discriminate; cbn [index_code unit_size app] in *; try (rewrite Z.mul_1_r, Z.mod_small in HW by lia; exact HW).
  - apply wp_const. eapply wp_b64; [cbn [ibin]; reflexivity|].
    change (2 ^ (2 mod 64)) with 4. exact HW.
  - apply wp_const. eapply wp_b64; [cbn [ibin]; reflexivity|]. exact HW.
Qed.

(** reading the element at [a] *)
Definition fetch_code (t : ty) (o : nat) : list instr :=
  match t with TList _ te => read_from_memory te o 0 | TUtf8 _ => [LGet o; Const (VI32 4)] | _ => [LGet o; Const (VI32 1)] end.
Lemma fetch_ok t v i ov o js ls k (st : store HS) (P : Z -> Prop) Q : is_seq t = true -> has_type t v ->
  rep (smem st) P t v [VI32 ov; VI32 (seq_len v * unit_size t)] -> 0 <= i < seq_len v -> nth_error ls o = Some (VI32 (ov + i * unit_size t)) ->
  ov + seq_len v * unit_size t <= msize (smem st) < m32 -> 0 <= ov ->
  (forall x ws, seq_nth v i = Some x -> rep (smem st) P (elem_ty t) x ws -> has_type (elem_ty t) x -> wp js (mkcfg ls (rev ws ++ k) st) Q) ->
  wp (fetch_code t o ++ js) (mkcfg ls k st) Q.
Proof.
  intros Ht Hty Hr Hi Ho Hb H0 HW. unfold seq_nth in HW. rewrite (proj2 (Z.ltb_lt i (seq_len v))) in HW by lia.
  destruct t; try discriminate; destruct v; cbn [rep] in Hr; try contradiction; cbn [has_type seq_len unit_size elem_ty fetch_code] in *.
  - destruct Hr as (o1 & He & H1 & H2 & H3 & H4). injection He as <-. destruct (nth_some _ _ Hi) as (x & Hx). rewrite Hx in HW. cbn [option_map] in HW.
    rewrite Z.mul_1_r in *. cbn [app]. eapply wp_lget; [exact Ho|]. apply wp_const. apply (HW _ [VI32 (ov + i); VI32 1] eq_refl).
    + cbn [rep]. exists (ov + i). split; [reflexivity|]. split; [lia|]. split; [cbn; lia|]. split; [|intros y Hy; apply H4; cbn in Hy; lia].
      pose proof (holds_nth _ _ _ _ _ H3 Hx) as Hh. rewrite Z2Nat.id in Hh by lia. exact Hh.
    + cbn [has_type length]. split; [lia|]. constructor; [|constructor]. destruct Hty as (_ & Hty). rewrite Forall_forall in Hty. apply Hty. eapply nth_error_In; exact Hx.
  - destruct Hr as (o1 & He & H1 & H2 & H3 & H4). injection He as <-. destruct (nth_some _ _ Hi) as (x & Hx). rewrite Hx in HW. cbn [option_map] in HW.
    rewrite Z.mul_1_r in *. cbn [app]. eapply wp_lget; [exact Ho|]. apply wp_const. apply (HW _ [VI32 (ov + i); VI32 1] eq_refl).
    + cbn [rep]. exists (ov + i). split; [reflexivity|]. split; [lia|]. split; [cbn; lia|]. split; [|intros y Hy; apply H4; cbn in Hy; lia].
      pose proof (holds_nth _ _ _ _ _ H3 Hx) as Hh. rewrite Z2Nat.id in Hh by lia. exact Hh.
    + cbn [has_type length]. split; [lia|]. constructor; [|constructor]. destruct Hty as (_ & Hty). rewrite Forall_forall in Hty. apply Hty. eapply nth_error_In; exact Hx.
  - destruct Hr as (o1 & He & H1 & H2 & H3 & H4). injection He as <-. destruct (nth_some _ _ Hi) as (x & Hx). rewrite Hx in HW. cbn [option_map] in HW.
    cbn [app]. eapply wp_lget; [exact Ho|]. apply wp_const. rewrite utf8_len in H4, H2. apply (HW _ [VI32 (ov + i * 4); VI32 4] eq_refl).
    + cbn [rep flat_map]. rewrite app_nil_r. exists (ov + i * 4). rewrite be4_len. change (Z.of_nat 4) with 4. split; [reflexivity|]. split; [lia|]. split; [lia|].
      split; [|intros y Hy; apply H4; lia]. pose proof (holds_nth4 _ _ _ _ _ H3 Hx) as Hh. rewrite Z2Nat.id in Hh by lia. exact Hh.
    + cbn [has_type length]. split; [lia|]. constructor; [|constructor]. destruct Hty as (_ & Hty). rewrite Forall_forall in Hty. apply Hty. eapply nth_error_In; exact Hx.
  - destruct Hr as (o1 & He & H1 & H2 & H3 & H4 & H5). injection He as <-. destruct (nth_some _ _ Hi) as (x & Hx). rewrite Hx in HW.
    destruct (elem_nth _ _ _ _ _ _ _ H5 Hx) as (ws & W1 & W2). rewrite Z2Nat.id in W1 by lia.
    eapply read_memory_ok; [exact Ho|eapply rep_typed; exact W2|rewrite Z.add_0_r; exact W1|].
    apply (HW x (blank t ws) eq_refl); [apply blank_rep; exact W2|]. destruct Hty as (_ & Hty). rewrite Forall_forall in Hty. apply Hty. eapply nth_error_In; exact Hx.
Qed.
Lemma placeholder_seq t : is_seq t = true -> match t with TList _ te => placeholders te | _ => [Const (VI32 0); Const (VI32 0)] end = placeholders (elem_ty t).
Proof. destruct t; try discriminate; reflexivity. Qed.

Lemma element_at_ok G t fa fi a i ma mi : is_seq t = true -> ty_ok t -> impl G t fa a ma -> impl G TUInt fi i mi ->
  impl G (TOpt (elem_ty t)) (fa + fi) (e_element_at t a i)
    (fun r => bind (ma r) (fun v => bind (mi r) (fun w =>
       match w with CUInt n => ret (match seq_nth v n with Some x => CSome x | None => CNone end) | _ => bad end))).
Proof.
  intros Ht Hok HA HB. fr_of HA. fr_of HB. split; [lia|]. intros d B l code l' HC Hw. unfold e_element_at in HC.
  destruct (a d B l) as [ca l1] eqn:Ea. destruct (i d B l1) as [ci l2] eqn:Ei.
  destruct (add_local T32 l2) as [ov l3] eqn:E1. destruct (add_local T64 l3) as [ix l4] eqn:E2. destruct (add_local T32 l4) as [o l5] eqn:E3.
  rewrite (placeholder_seq _ Ht) in HC.
  change (match t with TList _ te => [Const (VI64 (get_type_size te)); B64 Mul] | TUtf8 _ => [Const (VI64 2); B64 Shl] | _ => [] end) with (index_code t) in HC.
  change (match t with TList _ te => read_from_memory te o 0 | TUtf8 _ => [LGet o; Const (VI32 4)] | _ => [LGet o; Const (VI32 1)] end) with (fetch_code t o) in HC.
  injection HC as <- <-. ext_of HA Ea Xa. ext_of HB Ei Xi.
  destruct (add_ok _ _ _ _ E1 (lext_wf _ _ Xi)) as (X3 & L3 & N3). destruct (add_ok _ _ _ _ E2 (lext_wf _ _ X3)) as (X4 & L4 & N4). destruct (add_ok _ _ _ _ E3 (lext_wf _ _ X4)) as (X5 & L5 & N5).
  assert (X02 : lext l l2) by (eapply lext_trans; eauto). assert (X03 : lext l l3) by (eapply lext_trans; eauto). assert (X04 : lext l l4) by (eapply lext_trans; eauto).
  split; [eapply lext_trans; eauto|].
  assert (D1 : ov <> ix) by (intros ->; exact (N4 L3)).
  assert (D2 : ix <> o) by (intros ->; exact (N5 L4)).
  intros F r js ls k st sp Q rs Hm HC HL HX HW. rewrite <- !app_assoc.
  eapply (impl_next _ _ _ _ _ _ _ _ _ _ HA Ea);
    [exact HC|eapply moved_refl; eauto|lia|apply lext_refl; auto|eapply ctx_less; [exact HC|lia]|exact Hm|exact HX|lenl|].
  intros v h1 ls1 st1 sp1 ws HG HM1 Hm1 HL1. cbv beta in Hm1.
  destruct (rep_seq _ _ _ _ _ Ht (g_rep _ _ _ _ _ _ _ _ _ _ _ _ _ HG)) as (pv & -> & A1 & A2 & A3 & A4).
  pose proof (g_type _ _ _ _ _ _ _ _ _ _ _ _ _ HG) as Htv. pose proof (seq_type_len _ _ Ht Htv) as Hlv.
  cbn [rev app]. apply wp_extu. rewrite <- ?app_assoc.
  eapply (impl_next _ _ _ _ _ _ _ _ _ _ HB Ei);
    [exact HC|exact HM1|lia|exact Xa|eapply ctx_moved; [exact HC|exact Xa|exact HM1|lia]|exact Hm1|exact HX|lenl|].
  intros w h2 ls2 st2 sp2 ws2 HG2 HM2 Hm2 HL2. cbv beta in Hm2.
  assert (HRx : rep (smem st2) (vis F sp2) t v [VI32 pv; VI32 (seq_len v * unit_size t)]) by (eapply rep_moved; [apply HG2|apply HG]).
  pose proof (g_type _ _ _ _ _ _ _ _ _ _ _ _ _ HG2) as Hti. pose proof (g_rep _ _ _ _ _ _ _ _ _ _ _ _ _ HG2) as Hri.
  destruct w; cbn [has_type] in Hti; try contradiction. cbn [rep] in Hri. subst ws2. rename z into n.
  unfold ret in Hm2. injection Hm2 as <-.
  pose proof (ctx_msize _ _ _ _ _ _ _ _ _ _ _ _ _ _ _ HC HM2) as Hmz. pose proof (c_room _ _ _ _ _ _ _ _ _ _ _ HC) as Hrm.
  assert (HLn : length ls2 = length ls) by (apply lkeep_len with (l := l); apply HM2).
  assert (Hmx : seq_max t <= max_value_size) by (destruct t; try discriminate; cbn [ty_ok seq_max] in *; lia). unfold max_value_size in Hmx.
  assert (HU : 1 <= unit_size t) by (destruct t; try discriminate; cbn [unit_size ty_ok] in *; try lia; destruct Hok as (_ & Hok); apply size_pos in Hok; lia).
  assert (Iov : (ov < length ls2)%nat) by (destruct L3 as (L3 & _); apply lext_len in X4, X5; lia).
  assert (Iix : (ix < length ls2)%nat) by (destruct L4 as (L4 & _); apply lext_len in X5; lia).
  assert (Io : (o < length ls2)%nat) by (destruct L5 as (L5 & _); lia).
  set (lo := n mod 2 ^ 64) in *. set (hi := n / 2 ^ 64 mod 2 ^ 64) in *.
  assert (Hlo : 0 <= lo < m64) by (apply Z.mod_pos_bound; lia).
  cbn [rev app]. apply wp_const. apply wp_r64. apply wp_lset. apply wp_ltee. apply wp_const. apply wp_r64.
  eapply wp_lget; [rewrite nth_lset_ne by auto; apply lset_same; exact Iov|]. eapply wp_b32; [apply b2z_or|]. apply wp_lset.
  set (big := (_ || _)%bool).
  set (ls3 := lset (lset (lset ls2 ov _) ix (VI64 lo)) ov (VI32 (b2z big))).
  assert (Hl3 : length ls3 = length ls2) by (unfold ls3; rewrite !lset_len; reflexivity).
  eapply wp_lget; [unfold ls3; rewrite nth_lset_ne by auto; apply lset_same; rewrite lset_len; exact Iix|]. rewrite <- ?app_assoc.
  apply index_ok; [exact Ht|exact Hlo|]. cbn [app]. apply wp_ltee. apply wp_r64.
  eapply wp_lget; [rewrite nth_lset_ne by auto; unfold ls3; apply lset_same; rewrite !lset_len; exact Iov|]. eapply wp_b32; [apply b2z_or|].
  set (off := (lo * unit_size t) mod m64). set (ls4 := lset ls3 ix (VI64 off)).
  assert (Hk4 : lkeep l ls2 ls4).
  { unfold ls4, ls3. assert (Nov : ~ live l ov) by (intros Hlive; apply N3; exact (lext_live _ _ _ X02 Hlive)). assert (Nix : ~ live l ix) by (intros Hlive; apply N4; exact (lext_live _ _ _ X03 Hlive)).
    eapply lkeep_trans0; [eapply lkeep_trans0; [eapply lkeep_trans0; [|]|]|]; apply lkeep_lset; auto. }
  assert (Hoff : big = false -> n < 2 ^ 64 /\ n <= 1048576 /\ lo = n).
  { unfold big. cbn [irel]. intros Hb. apply orb_false_iff in Hb. destruct Hb as (Hb1 & Hb2). apply Z.ltb_ge in Hb1, Hb2.
    assert (hi = 0) by (pose proof (Z.mod_pos_bound (n / 2 ^ 64) (2 ^ 64)); unfold hi in *; lia).
    assert (n / 2 ^ 64 < 2 ^ 64) by (apply Z.div_lt_upper_bound; lia). assert (0 <= n / 2 ^ 64) by (apply Z.div_pos; lia).
    unfold hi in H. rewrite Z.mod_small in H by lia. assert (n < 2 ^ 64). { pose proof (Z.div_mod n (2 ^ 64)). pose proof (Z.mod_pos_bound n (2 ^ 64)). lia. }
    unfold lo in *. rewrite (Z.mod_small n) in * by lia. lia. }
  assert (Hir : (irel sgn64 LeU (seq_len v * unit_size t) off || big)%bool = negb (n <? seq_len v)).
  { cbn [irel]. destruct big eqn:Ebig.
    - rewrite orb_true_r. destruct (Z.ltb_spec n (seq_len v)); [|reflexivity]. exfalso.
      unfold big in Ebig. cbn [irel] in Ebig. assert (Hn : n < 2 ^ 64) by lia. unfold hi, lo in *. rewrite (Z.div_small n) in Ebig by lia. rewrite (Z.mod_small n) in Ebig by lia.
      apply orb_true_iff in Ebig. destruct Ebig as [Eb|Eb]; apply Z.ltb_lt in Eb; cbn in Eb; lia.
    - destruct (Hoff eq_refl) as (B1 & B2 & B3). rewrite orb_false_r. unfold off. rewrite B3.
      destruct (Z.eq_dec (seq_len v) 0) as [H0|H0].
      + rewrite H0. destruct (Z.ltb_spec n 0); [lia|]. apply Z.leb_le. rewrite Z.mul_0_l. apply Z.mod_pos_bound. lia.
      + assert (Hub : unit_size t < m32) by (clear - A2 H0 Hlv HU; nia). assert (Hnu : 0 <= n * unit_size t < m64) by (clear - B2 Hub HU Hti; nia).
        rewrite Z.mod_small by exact Hnu. destruct (Z.ltb_spec n (seq_len v)); cbn [negb]; [apply Z.leb_gt|apply Z.leb_le]; clear - H HU; nia. }
  rewrite Hir. assert (HM4 : moved l ls st sp (fa + fi) ls4 st2 sp2) by (eapply moved_more; [eapply moved_ls; [exact HM2|exact Hk4]|lia]).
  destruct (Z.ltb_spec n (seq_len v)) as [Hin|Hout]; cbn [negb b2z]; eapply wp_if; try reflexivity; cbn [Z.eqb firstn skipn]; unfold setstk; cbn [clocals cstore].
  - assert (Hbig : big = false) by (cbn [irel negb] in Hir; apply orb_false_iff in Hir; apply Hir).
    destruct (Hoff Hbig) as (B1 & B2 & B3).
    assert (Ho : off = n * unit_size t) by (unfold off; rewrite B3; apply Z.mod_small; clear - Hin Hti A2 HU; nia).
    assert (Hob : off < m32) by (rewrite Ho; clear - Hin Hti A2 HU; nia).
    assert (Ho0 : 0 <= off) by (unfold off; apply Z.mod_pos_bound; lia).
    assert (Hfit : pv + off <= msize (smem st2)) by (rewrite Hmz, <- (ctx_msize _ _ _ _ _ _ _ _ _ _ _ _ _ _ _ HC HM1); clear - Ho A3 Hin HU; nia).
    assert (Hfit2 : pv + seq_len v * unit_size t <= msize (smem st2)) by (rewrite Hmz, <- (ctx_msize _ _ _ _ _ _ _ _ _ _ _ _ _ _ _ HC HM1); lia).
    cbn [app]. eapply wp_lget; [apply lset_same; lia|]. apply wp_wrap. eapply wp_b32; [cbn [ibin]; reflexivity|]. rewrite (Z.mod_small off) by lia. rewrite Z.mod_small by lia.
    apply wp_lset. apply wp_const. rewrite <- (app_nil_r (fetch_code t o)). eapply (fetch_ok t v n pv); [exact Ht|exact Htv|exact HRx|lia|rewrite <- Ho; apply lset_same; unfold ls4; rewrite lset_len; lia|lia|lia|].
    intros x wx Hnx Hrx Htx. apply qb_done. replace ((rev wx ++ [VI32 1]) ++ k) with (rev (VI32 1 :: wx) ++ k) by reflexivity.
    rewrite Hnx in HW. apply (HW _ _ _ st2 sp2 (VI32 1 :: wx) eq_refl). constructor.
    + eapply moved_ls; [exact HM4|]. apply lkeep_lset. intros Hlive. apply N5. exact (lext_live _ _ _ X04 Hlive).
    + cbn [rep]. eexists. split; [reflexivity|exact Hrx].
    + exact Htx.
    + reflexivity.
  - cbn [app]. apply wp_drop. apply wp_const. rewrite <- (app_nil_r (placeholders _)). eapply wp_placeholders. apply qb_done.
    set (zs := map zero_of (clar2wasm_ty (elem_ty t))). replace ((rev zs ++ [VI32 0]) ++ k) with (rev (VI32 0 :: zs) ++ k) by reflexivity.
    assert (Hnn : seq_nth v n = None) by (unfold seq_nth; rewrite (proj2 (Z.ltb_ge n (seq_len v))) by lia; reflexivity). rewrite Hnn in HW.
    apply (HW _ _ _ st2 sp2 (VI32 0 :: zs) eq_refl). constructor; [exact HM4| |exact I|reflexivity].
    cbn [rep]. eexists. split; [reflexivity|apply zeros_typed].
Qed.
End Cat.
