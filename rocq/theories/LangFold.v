(** * Correctness of emitted expression code: fold (proof support) *)
From Coq Require Import ZArith String List Bool Lia.
Import ListNotations.
From Verif Require Import ReadProofs Wasm Std StdEnv WasmLogic WasmTac Mem MemFacts Bytes Spec SpecBytes SpecUtf8 ArithProofs Clar Rep RepFacts Emit EmitFacts EmitProofs Equal EqualProofs
  CallProofs ArgProofs Ast SpecLang Lang Typing LangFacts LangBase LangCtl LangEarly LangMem LangSeq LangList LangConcat LangSlice LangLaid LangIndex LangCopy LangCall LangFn.
Open Scope string_scope.
Open Scope list_scope.
Open Scope Z_scope.

Lemma save_code t l is c l' : save_to_locals t l = (is, c, l') -> c = map LSet (rev is).
Proof. unfold save_to_locals. destruct (add_locals _ l) as [ns l1]. intros H. injection H as <- <- _. rewrite rev_involutive. reflexivity. Qed.
Lemma rep_below {HS} (F : Z -> Prop) (st st' : store HS) sp t v ws : below sp (smem st) (smem st') -> rep (smem st) (vis F sp) t v ws -> rep (smem st') (vis F sp) t v ws.
Proof. intros (H1 & H2) Hr. eapply rep_frame; [exact H1| |intros a Ha; exact Ha|exact Hr]. intros a (Ha & _). auto. Qed.
Lemma moved_call {HS} l ls (st : store HS) sp n ls1 st1 sp1 ls2 st2 l1 : moved l ls st sp n ls1 st1 sp1 -> lext l l1 -> lkeep l1 ls1 ls2 -> below sp1 (smem st1) (smem st2) ->
  (forall x, gget (sglob st2) x = gget (sglob st1) x) -> moved l ls st sp n ls2 st2 sp1.
Proof.
  intros [M1 M2 M3 M4 M5] Hx Hk Hb Hg. constructor.
  - eapply lkeep_trans0; [exact M1|eapply lkeep_weaken; eauto].
  - eapply below_trans; [|exact M2|exact Hb]. lia.
  - rewrite Hg. exact M3.
  - intros x Hx'. rewrite Hg. auto.
  - exact M5.
Qed.

Lemma call_code_ty k f tr t l : widens tr t = true -> call_code k f t l = call_code k f tr l.
Proof. intros H. destruct k; cbn [call_code]; auto. unfold save_to_locals. rewrite (widens_wasm _ _ H). reflexivity. Qed.

Section Fold.
Context {HS : Type} {CH : chain HS} (E : env HS) (HE : has_std E) (sig : list (string * fsig)) (rt : ty) (L : list (ty * value * Z)) (X : Z) (HX0 : 0 <= X).
Hypothesis HO : scope_ok E.
Variable funs : string -> list value -> M HS value.
Hypothesis Hfuns : forall f ts tr, assoc f sig = Some (ts, tr) -> fun_ok E L X funs f ts tr.
Notation wp := (wp E).
Notation impl := (impl E rt L X).
Notation ctx := (ctx L X).
Notation impl_next := (impl_next E rt L X).
Notation impl_fr := (impl_fr E rt L X).
Notation impl_ext := (impl_ext E rt L X).
Ltac fr_of H := let P := fresh "P" in pose proof (impl_fr _ _ _ _ _ H) as P.
Ltac ext_of H E X := let W := fresh in
  match type of E with ?c ?d ?B ?l = _ =>
    assert (W : lwf l) by (assumption || (eapply lext_wf; eassumption));
    pose proof (impl_ext _ _ _ _ _ _ _ _ _ _ H E W) as X; clear W end.
Ltac lenl := repeat match goal with H : lext _ _ |- _ => apply lext_len in H | H : moved _ _ _ _ _ _ _ _ |- _ => apply m_ls, lkeep_len in H end; lia.

Lemma fold_ok G g t ta tb fa fb a b ma mb : is_seq ta = true -> ty_ok ta -> ty_ok t -> widens tb t = true -> has_in_memory t = false ->
  wt_fn sig g t [elem_ty ta; t] = true -> impl G ta fa a ma -> impl G tb fb b mb ->
  impl G t (call_stack_size t true true + fa + fb) (e_fold g t ta a b)
    (fun r => bind (ma r) (fun v => bind (mb r) (fun w => foldF true funs g t (seq_items v) w))).
Proof.
  intros Ht Hok Hokt Wb Hnm Hwf HA HB0. pose proof (impl_widen _ _ _ _ _ _ _ _ _ _ HB0 Wb) as HB. clear HB0. fr_of HA. fr_of HB.
  assert (P5 : 0 <= call_stack_size t true true) by (unfold call_stack_size; pose proof (size_nonneg t); pose proof (inmem_nonneg t true Hokt); lia).
  remember (call_stack_size t true true) as sz eqn:Hsz.
  split; [lia|]. intros d B l code l' HC Hw. unfold e_fold in HC.
  destruct (create_call_stack_local t true true l) as [[[ro sz1] cc] l1] eqn:Ec. assert (Hsz1 : sz1 = sz) by (rewrite Hsz; unfold create_call_stack_local in Ec; destruct (add_local T32 l); congruence). subst sz1.
  destruct (a d B l1) as [ca l2] eqn:Ea. destruct (add_local T32 l2) as [len l3] eqn:E1. destruct (add_local T32 l3) as [off l4] eqn:E2. destruct (add_local T32 l4) as [end_ l5] eqn:E3.
  destruct (b d B l5) as [cb l6] eqn:Eb. destruct (save_to_locals t l6) as [[is cs] l7] eqn:Es.
  destruct (visit_fn g t t [elem_ty ta; t] (Some ro) l7) as [cv l8] eqn:Ev.
  pose proof (f_equal fst HC) as HC1; pose proof (f_equal snd HC) as HC2; cbn [fst snd] in HC1, HC2; clear HC; subst code l'.
  destruct (reserve_run E L X HX0 _ _ _ _ _ _ _ _ Ec Hw) as (Xc & Ld & Nd & Hres). ext_of HA Ea Xa.
  destruct (add_ok _ _ _ _ E1 (lext_wf _ _ Xa)) as (X1 & L1 & N1). destruct (add_ok _ _ _ _ E2 (lext_wf _ _ X1)) as (X2 & L2 & N2).
  destruct (add_ok _ _ _ _ E3 (lext_wf _ _ X2)) as (X3 & L3 & N3). ext_of HB Eb Xb.
  destruct (save_ok E _ _ _ _ _ Es (lext_wf _ _ Xb)) as (Xs & His & Hli & Hsv). destruct (save_fresh _ _ _ _ _ Es (lext_wf _ _ Xb)) as (HN1 & HN2). rewrite <- (save_code _ _ _ _ _ Es) in *.
  assert (Hap : applies E L X t [elem_ty ta; t] (apply_fn true funs g t) cv l7 l8).
  { eapply (fn_ok E HE sig L X HO funs Hfuns g t [elem_ty ta; t] (Some ro)); [exact Hwf|destruct g; auto| |eapply lext_wf; exact Xs].
    rewrite <- Ev. destruct g as [kd f|w|o|any]; cbn [visit_fn fn_ret]; try reflexivity. cbn [wt_fn] in Hwf. destruct (assoc f sig) as [[ps tr]|] eqn:Ef; [|discriminate].
    repeat match goal with H : _ && _ = true |- _ => apply andb_prop in H as (? & ?) end. match goal with H : negb (has_in_memory tr) = true |- _ => apply negb_true_iff in H; rename H into Hm end.
    unfold visit_call, ret_of. rewrite Ef. cbn [snd]. rewrite Hm, Hnm. symmetry. apply call_code_ty. assumption. }
  destruct Hap as (Xv & Hap).
  assert (Y2 : lext l l2) by (eapply lext_trans; eauto). assert (Y3 : lext l l3) by (eapply lext_trans; eauto). assert (Y4 : lext l l4) by (eapply lext_trans; eauto).
  assert (Y5 : lext l l5) by (eapply lext_trans; eauto). assert (Y6 : lext l l6) by (eapply lext_trans; eauto). assert (Y7 : lext l l7) by (eapply lext_trans; eauto).
  assert (V56 : lext l5 l6) by exact Xb. assert (V57 : lext l5 l7) by (eapply lext_trans; eauto). assert (V47 : lext l4 l7) by (eapply lext_trans; eauto).
  split; [eapply lext_trans; eauto|].
  assert (Ln4 : live l4 len) by (eapply lext_live; [exact X2|exact L1]). assert (Ln5 : live l5 len) by (eapply lext_live; [exact X3|exact Ln4]). assert (Lo5 : live l5 off) by (eapply lext_live; [exact X3|exact L2]).
  assert (Lo7 : live l7 off) by (eapply lext_live; [exact V57|exact Lo5]). assert (Le7 : live l7 end_) by (eapply lext_live; [exact V57|exact L3]).
  assert (Fo : Forall (fun i => i <> off) is) by (eapply Forall_impl; [|exact HN2]; intros i Hi ->; apply Hi; eapply lext_live; [exact Xb|exact Lo5]).
  intros F r js ls k st sp Q rs Hm HC HL HX HW. rewrite <- !app_assoc.
  assert (Q1 : (len < length ls)%nat) by (destruct L1; lenl). assert (Q2 : (off < length ls)%nat) by (destruct L2; lenl). assert (Q3 : (end_ < length ls)%nat) by (destruct L3; lenl).
  assert (R1 : (llen l1 <= length ls)%nat) by lenl. assert (R2 : (llen l2 <= length ls)%nat) by lenl. assert (R6 : (llen l6 <= length ls)%nat) by lenl. assert (R7 : (llen l7 <= length ls)%nat) by lenl.
  assert (HU : 1 <= unit_size ta) by (clear - Ht Hok; destruct ta; try discriminate; cbn [unit_size ty_ok] in *; try lia; destruct Hok as (_ & Hok); apply size_pos in Hok; lia).
  pose proof (c_lo _ _ _ _ _ _ _ _ _ _ _ HC) as Hlo. pose proof (c_room _ _ _ _ _ _ _ _ _ _ _ HC) as Hrm.
  assert (G1 : sz + fa <= sz + fa + fb) by lia. assert (G2 : sz + fa + fb <= sz + fa + fb) by lia.
  assert (D1 : off <> len) by (intros ->; exact (N2 L1)). assert (D2 : end_ <> len) by (intros ->; exact (N3 Ln4)). assert (D3 : end_ <> off) by (intros ->; exact (N3 L2)).
  (* reserve *)
  eapply Hres; [exact HC|clear - P5 P P0; lia|exact R1|]. intros ls0 st0 Hh Hmem HM0 Hol HC0'. clear HC0'. rewrite <- Hh in Hm.
  assert (HC0 : ctx G B r F l1 ls0 st0 (sp + sz) (fa + fb)) by (eapply ctx_moved; [exact HC|exact Xc|exact HM0|clear; lia]).
  rewrite <- ?app_assoc.
  eapply (impl_next _ _ _ _ _ _ _ _ _ _ HA Ea); [exact HC|exact HM0|exact G1|exact Xc|eapply ctx_less; [exact HC0|clear - P0; lia]|exact Hm|exact HX|exact R2|].
  intros v h ls1 st1 sp1 ws HG HM1 Hm1 HLv. cbv beta in Hm1.
  pose proof (g_rep _ _ _ _ _ _ _ _ _ _ _ _ _ HG) as Hrv. pose proof (g_type _ _ _ _ _ _ _ _ _ _ _ _ _ HG) as Htv.
  destruct (rep_seq _ _ _ _ _ Ht Hrv) as (pv & -> & A1 & A2 & A3 & A4). pose proof (seq_type_len _ _ Ht Htv) as Hlv.
  pose proof (ctx_msize _ _ _ _ _ _ _ _ _ _ _ _ _ _ _ HC HM1) as Hmz.
  set (nv := seq_len v * unit_size ta) in *.
  assert (Z1 : length ls1 = length ls) by (apply lkeep_len with (l := l); apply HM1).
  cbn [rev app]. apply wp_lset. apply wp_ltee. eapply wp_lget; [rewrite nth_lset_ne by auto; apply lset_same; rewrite Z1; exact Q1|].
  eapply wp_b32; [cbn [ibin]; rewrite (Z.mod_small (pv + nv)) by (clear - A1 A2 A3 Hmz Hrm HX0 P P0 P5 Hlo; lia); reflexivity|]. apply wp_lset.
  set (ls2 := lset (lset (lset ls1 len _) off _) end_ _).
  assert (Z2 : length ls2 = length ls) by (unfold ls2; rewrite !lset_len; exact Z1).
  assert (K2 : lkeep l2 ls1 ls2).
  { unfold ls2. eapply lkeep_trans0; [eapply lkeep_trans0; apply lkeep_lset|apply lkeep_lset].
    - exact N1.
    - intros Hlive. exact (N2 (lext_live _ _ _ X1 Hlive)).
    - intros Hlive. exact (N3 (lext_live _ _ _ X2 (lext_live _ _ _ X1 Hlive))). }
  assert (S2 : nth_error ls2 len = Some (VI32 nv)) by (unfold ls2; rewrite !nth_lset_ne by auto; apply lset_same; rewrite Z1; exact Q1).
  assert (O2 : nth_error ls2 off = Some (VI32 pv)) by (unfold ls2; rewrite nth_lset_ne by auto; apply lset_same; rewrite lset_len, Z1; exact Q2).
  assert (T2 : nth_error ls2 end_ = Some (VI32 (pv + nv))) by (unfold ls2; apply lset_same; rewrite !lset_len, Z1; exact Q3).
  assert (HM2 : moved l ls st sp (sz + fa) ls2 st1 sp1) by (eapply moved_ls'; [exact HM1|exact Y2|exact K2]).
  assert (HCb : ctx G B r F l5 ls2 st1 sp1 fb) by (eapply ctx_moved; [exact HC|exact Y5|exact HM2|clear; lia]).
  rewrite <- ?app_assoc.
  eapply (impl_next _ _ _ _ _ _ _ _ _ _ HB Eb); [exact HC|exact HM2|exact G2|exact Y5|exact HCb|exact Hm1|exact HX|exact R6|].
  intros w h' ls3 st3 sp3 wsw HGb HM3 Hm3 HLw.
  pose proof (g_moved _ _ _ _ _ _ _ _ _ _ _ _ _ HGb) as HMb. pose proof (g_rep _ _ _ _ _ _ _ _ _ _ _ _ _ HGb) as Hrw. pose proof (g_type _ _ _ _ _ _ _ _ _ _ _ _ _ HGb) as Htw.
  assert (Hrw' : forall m P, rep m P t w wsw) by (intros m P'; eapply no_mem_rep; [exact Hnm|exact Hrw]).
  assert (Z3 : length ls3 = length ls) by (apply lkeep_len with (l := l); apply HM3).
  assert (Hrv3 : rep (smem st3) (vis F sp3) ta v [VI32 pv; VI32 nv]) by (eapply rep_moved; [exact HMb|exact Hrv]).
  assert (HK3 : callable L X F st3 sp3).
  { eapply ctx_callable with (n := 0); [|clear; lia]. eapply ctx_moved; [exact HC|exact Y5|eapply moved_more; [exact HM3|]|]; [apply Z.le_refl|clear; lia]. }
  pose proof (m_ls _ _ _ _ _ _ _ _ HMb) as KB.
  cbn [app]. eapply wp_lget; [rewrite (lkeep_get _ _ _ _ KB Ln5); exact S2|]. apply wp_eqz32.
  eapply wp_if; [reflexivity|]. cbn [cstack clocals cstore]. rewrite firstn_app, skipn_app.
  replace (length (clar2wasm_ty t) - length (rev wsw))%nat with 0%nat by (rewrite rev_length, HLw; clear; lia).
  rewrite firstn_O, app_nil_r. replace (firstn (length (clar2wasm_ty t)) (rev wsw)) with (rev wsw) by (rewrite <- HLw, <- (rev_length wsw), firstn_all; reflexivity).
  replace (skipn (length (clar2wasm_ty t)) (rev wsw)) with (@nil val) by (rewrite <- HLw, <- (rev_length wsw), skipn_all; reflexivity). cbn [skipn app].
  unfold setstk; cbn [clocals cstore]. destruct (Z.eqb_spec nv 0) as [H0|H0]; cbn [b2z Z.eqb negb].
  { (* empty *)
    assert (Hl0 : seq_len v = 0) by (unfold nv in H0; clear - H0 HU Hlv; nia).
    assert (Hit : seq_items v = []) by (pose proof (items_len _ _ Ht Htv) as HI; rewrite Hl0 in HI; destruct (seq_items v); [reflexivity|cbn [length] in HI; clear - HI; lia]).
    rewrite Hit in Hm3. cbn [foldF] in Hm3. unfold ret in Hm3. injection Hm3 as <-. apply qb_done.
    apply (HW _ (shost st3) ls3 st3 sp3 wsw eq_refl). constructor; [exact HM3|exact Hrw|exact Htw|reflexivity]. }
  assert (Hlp : 0 < seq_len v) by (unfold nv in H0; clear - H0 HU Hlv; nia).
  rewrite <- (app_nil_r (rev wsw)). rewrite <- ?app_assoc. eapply Hsv; [exact HLw|rewrite Z3; exact R7|]. intros ls4 K4 HV4. cbn [app].
  assert (Z4 : length ls4 = length ls) by (rewrite (lkeep_len _ _ _ K4); exact Z3).
  assert (K24 : lkeep l5 ls2 ls4) by (eapply lkeep_trans0; [exact KB|eapply lkeep_weaken; [exact Xb|exact K4]]).
  assert (HM4 : moved l ls st sp (sz + fa + fb) ls4 st3 sp3) by (eapply moved_ls'; [exact HM3|exact Y6|exact K4]).
  set (u := unit_size ta) in *. clear Hm1 Hm HG HM1 HM2 HCb HGb HC0.
  eapply wp_loop0 with (z := seq_len v) (I := fun z s => exists lsx stx acc wacc i, s = mkcfg lsx [] stx /\ 0 <= i < seq_len v /\ z = seq_len v - i /\
     moved l ls st sp (sz + fa + fb) lsx stx sp3 /\ callable L X F stx sp3 /\ rep (smem stx) (vis F sp3) ta v [VI32 pv; VI32 nv] /\
     nth_error lsx off = Some (VI32 (pv + i * u)) /\ nth_error lsx end_ = Some (VI32 (pv + nv)) /\ lvals lsx is wacc /\ (forall m P, rep m P t acc wacc) /\ has_type t acc /\
     foldF true funs g t (skipn (Z.to_nat i) (seq_items v)) acc (shost stx) = Some rs).
  { clear - Hlp; lia. }
  { exists ls4, st3, w, wsw, 0. split; [reflexivity|]. split; [clear - Hlp; lia|]. split; [clear; lia|]. split; [exact HM4|]. split; [exact HK3|]. split; [exact Hrv3|].
    split; [rewrite Z.mul_0_l, Z.add_0_r, (lkeep_get _ _ _ _ K24 Lo5); exact O2|]. split; [rewrite (lkeep_get _ _ _ _ K24 L3); exact T2|].
    split; [exact HV4|]. split; [exact Hrw'|]. split; [exact Htw|exact Hm3]. }
  intros z ls9 st9 Hz (lsx & stx & acc & wacc & i & Hcfg & Hi & Hzi & HMx & HKx & Hrx & Ox & Tx & Vx & Hra & Hta & Hf). apply cfg_inj in Hcfg as (-> & ->).
  assert (Zx : length lsx = length ls) by (apply lkeep_len with (l := l); apply HMx).
  assert (Hmzx : msize (smem stx) = msize (smem st)) by (eapply ctx_msize; [exact HC|exact HMx]).
  change (elem_code ta off) with (fetch_code ta off).
  eapply (fetch_ok E ta v i pv off); [exact Ht|exact Htv|exact Hrx|exact Hi|exact Ox|rewrite Hmzx; clear - A3 Hmz Hrm HX0 P P0 P5 Hlo; fold nv; lia|apply A1|].
  intros x wx Hx Hrxx Htx. eapply wp_lgets; [exact Vx|]. replace (rev wacc ++ rev wx ++ []) with (rev (wx ++ wacc) ++ []) by (rewrite rev_app_distr, <- app_assoc; reflexivity).
  rewrite (items_skip _ _ _ (proj1 Hi) Hx) in Hf. cbn [foldF] in Hf. unfold bind in Hf.
  destruct (apply_fn true funs g t [x; acc] (shost stx)) as [rs1|] eqn:Hap1; [|discriminate].
  eapply (Hap F sp3 [x; acc] (wx ++ wacc) stx rs1); [exact HKx|rewrite Zx; exact HL| | |exact Hap1| |].
  { constructor; [exact Hrxx|]. rewrite <- (app_nil_r wacc). constructor; [apply Hra|constructor]. }
  { constructor; [exact Htx|constructor; [exact Hta|constructor]]. }
  { intros c ->. assert (Hrs : rs = Abort c) by congruence. subst rs. cbn [exits] in HX. cbn. exact HX. }
  intros acc' h1 ls5 st5 wacc' -> K5 Hb5 Hg5 Hh5 Hra' Hta'. rewrite <- Hh5 in Hf.
  assert (Z5 : length ls5 = length ls) by (rewrite (lkeep_len _ _ _ K5); exact Zx).
  eapply Hsv; [rewrite (rep_len _ _ _ _ _ (Hra' (smem st5) (vis F sp3))); reflexivity|rewrite Z5; exact R7|]. intros ls6 K6 V6.
  assert (Z6 : length ls6 = length ls) by (rewrite (lkeep_len _ _ _ K6); exact Z5).
  assert (K56 : lkeep l6 lsx ls6) by (eapply lkeep_trans0; [eapply lkeep_weaken; [exact Xs|exact K5]|exact K6]).
  assert (O6 : nth_error ls6 off = Some (VI32 (pv + i * u))) by (rewrite (lkeep_get _ _ _ _ K56 (lext_live _ _ _ Xb Lo5)); exact Ox).
  assert (T6 : nth_error ls6 end_ = Some (VI32 (pv + nv))) by (rewrite (lkeep_get _ _ _ _ K56 (lext_live _ _ _ Xb L3)); exact Tx).
  assert (HM6 : moved l ls st sp (sz + fa + fb) ls6 st5 sp3) by (eapply moved_call; [exact HMx|exact Y6|exact K56|exact Hb5|exact Hg5]).
  assert (HM7 : forall y, moved l ls st sp (sz + fa + fb) (lset ls6 off y) st5 sp3) by (intros y; eapply moved_ls'; [exact HM6|exact Y3|apply lkeep_lset; exact N2]).
  assert (Hnx : (i + 1) * u <= nv /\ (i + 1 < seq_len v -> (i + 1) * u < nv)) by (unfold nv; clear - Hi HU; nia).
  assert (Hge : i + 1 = seq_len v -> (i + 1) * u = nv) by (intros ->; reflexivity).
  cbn [app]. eapply wp_lget; [exact O6|]. apply wp_const. change (elem_size ta) with u.
  eapply wp_b32; [cbn [ibin]; replace (pv + i * u + u) with (pv + (i + 1) * u) by (clear; lia); rewrite (Z.mod_small (pv + (i + 1) * u)) by (clear - Hnx A1 A2 A3 Hmz Hrm HX0 P P0 P5 Hlo Hi HU; nia); reflexivity|].
  apply wp_ltee. eapply wp_lget; [rewrite nth_lset_ne by auto; exact T6|]. apply wp_r32. cbn [irel].
  assert (V7 : forall y, lvals (lset ls6 off y) is wacc') by (intros y; apply lvals_lset; [exact Fo|exact V6]).
  destruct (Z.eq_dec (i + 1) (seq_len v)) as [He|He].
  - rewrite (proj2 (Z.ltb_ge (pv + (i + 1) * u) (pv + nv))) by (rewrite (Hge He); clear; lia). cbn [b2z].
    apply wp_brif_eqz; [intros _|intros HH; congruence]. apply wp_nil. unfold cont, qloop. cbn [cstack app clocals cstore]. unfold setstk. cbn [clocals cstore cstack app].
    assert (Hsk : skipn (Z.to_nat (i + 1)) (seq_items v) = []) by (apply skipn_all2; pose proof (items_len _ _ Ht Htv) as HI; clear - HI He; lia).
    rewrite Hsk in Hf. cbn [foldF] in Hf. unfold ret in Hf. injection Hf as <-.
    rewrite <- (app_nil_r (push_locals is)). eapply wp_lgets; [apply V7|]. apply qb_done. rewrite app_nil_r.
    apply (HW _ (shost st5) _ st5 sp3 wacc' eq_refl). constructor; [apply HM7|apply Hra'|exact Hta'|reflexivity].
  - assert (Hlt : i + 1 < seq_len v) by (clear - Hi He; lia).
    rewrite (proj2 (Z.ltb_lt (pv + (i + 1) * u) (pv + nv))) by (clear - Hnx Hlt; lia). cbn [b2z].
    apply wp_brif_eqz; [intros HH; discriminate|intros _]. unfold qloop. unfold setstk. cbn [clocals cstore cstack app firstn].
    exists (seq_len v - (i + 1)). split; [clear - Hlt Hzi Hi; lia|].
    exists (lset ls6 off (VI32 (pv + (i + 1) * u))), st5, acc', wacc', (i + 1). split; [reflexivity|]. split; [clear - Hi Hlt; lia|]. split; [reflexivity|].
    split; [apply HM7|]. split; [eapply callable_after; [exact HKx|exact Hb5|exact Hg5]|]. split; [eapply rep_below; [exact Hb5|exact Hrx]|].
    split; [apply lset_same; rewrite Z6; exact Q2|]. split; [rewrite nth_lset_ne by auto; exact T6|]. split; [apply V7|]. split; [exact Hra'|]. split; [exact Hta'|exact Hf].
Qed.
End Fold.
