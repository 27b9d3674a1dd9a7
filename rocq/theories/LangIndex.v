(** * Correctness of emitted expression code: index-of (proof support) *)
From Coq Require Import ZArith String List Bool Lia.
Import ListNotations.
From Verif Require Import ReadProofs Wasm Std StdEnv WasmLogic WasmTac Mem MemFacts Bytes Spec SpecBytes SpecUtf8 ArithProofs Clar Rep RepFacts Emit EmitFacts EmitProofs Equal EqualProofs
  CallProofs ArgProofs Ast SpecLang Lang Typing LangFacts LangBase LangCtl LangEarly LangMem LangSeq LangList LangConcat LangSlice LangLaid.
Open Scope string_scope.
Open Scope list_scope.
Open Scope Z_scope.

Lemma nth_error_map' {A B} (f : A -> B) l n : nth_error (map f l) n = option_map f (nth_error l n).
Proof. revert n. induction l; intros [|n]; cbn; auto. Qed.
Lemma items_nth v i : 0 <= i -> seq_nth v i = nth_error (seq_items v) (Z.to_nat i).
Proof.
  intros Hi. unfold seq_nth. destruct v; cbn [seq_items seq_len];
    try (destruct (i <? 0) eqn:Hb; [|]; try (apply Z.ltb_lt in Hb; lia); destruct (Z.to_nat i); reflexivity).
  all: rewrite ?nth_error_map'.
  all: match goal with |- (if ?a <? Z.of_nat (length ?l) then _ else _) = _ => destruct (Z.ltb_spec a (Z.of_nat (length l))) as [H|H]; [reflexivity|]; assert (HN : nth_error l (Z.to_nat a) = None) by (apply nth_error_None; lia); rewrite HN; reflexivity end.
Qed.
Lemma items_len t v : is_seq t = true -> has_type t v -> Z.of_nat (length (seq_items v)) = seq_len v.
Proof. destruct t; try discriminate; intros _; destruct v; cbn [has_type]; try contradiction; intros _; cbn [seq_items seq_len]; rewrite ?map_length; reflexivity. Qed.
Lemma skipn_nth {A} (l : list A) n x : nth_error l n = Some x -> skipn n l = x :: skipn (S n) l.
Proof. revert n. induction l as [|y l IH]; intros [|n] H; cbn in H; try discriminate; [injection H as ->; reflexivity|]. apply IH in H. exact H. Qed.
Lemma items_skip v i x : 0 <= i -> seq_nth v i = Some x -> skipn (Z.to_nat i) (seq_items v) = x :: skipn (Z.to_nat (i + 1)) (seq_items v).
Proof. intros Hi H. rewrite items_nth in H by exact Hi. apply skipn_nth in H. rewrite H. replace (Z.to_nat (i + 1)) with (S (Z.to_nat i)) by lia. reflexivity. Qed.
Lemma find_bound w xs : forall i j, find_from w xs i = Some j -> i <= j < i + Z.of_nat (length xs).
Proof.
  induction xs as [|x xs IH]; intros i j H; cbn in H; [discriminate|]. cbn [length]. destruct (veqb w x); [injection H as <-; lia|]. apply IH in H. lia.
Qed.
Lemma inj_some {A} (x y : A) : Some x = Some y -> x = y.
Proof. congruence. Qed.
Lemma veqb_dec w x (b : bool) : (b = true <-> w = x) -> veqb w x = b.
Proof.
  intros H. destruct (veqb w x) eqn:Hv.
  - symmetry. apply H. apply veqb_spec. exact Hv.
  - destruct b; auto. assert (w = x) by (apply H; auto). apply veqb_spec in H0. congruence.
Qed.

Lemma lvals_lset ls o y is : forall ws, Forall (fun i => i <> o) is -> lvals ls is ws -> lvals (lset ls o y) is ws.
Proof.
  unfold lvals. intros ws Hn H. induction H as [|i w is ws Hi H IH]; [constructor|]. inversion Hn; subst. constructor; [rewrite nth_lset_ne by auto; exact Hi|auto].
Qed.

Section Index.
Context {HS : Type} {CH : chain HS} (E : env HS) (HE : has_std E) (rt : ty) (L : list (ty * value * Z)) (X : Z) (HX0 : 0 <= X).
Notation wp := (wp E).
Notation impl := (impl E rt L X).
Notation ctx := (ctx L X).
Notation impl_next := (impl_next E rt L X).
Notation impl_fr := (impl_fr E rt L X).
Notation impl_ext := (impl_ext E rt L X).
Ltac fr_of H := let P := fresh "P" in pose proof (impl_fr _ _ _ _ _ H) as P.
Ltac ext_of H E X := let W := fresh in
  match type of E with ?c ?d ?B ?l = _ =>
    assert (W : lwf l) by (assumption || (eapply lext_wf; eassumption));
    pose proof (impl_ext _ _ _ _ _ _ _ _ _ _ H E W) as X; clear W end.
Ltac lenl := repeat match goal with H : lext _ _ |- _ => apply lext_len in H | H : moved _ _ _ _ _ _ _ _ |- _ => apply m_ls, lkeep_len in H end; lia.

Lemma index_of_ok G t tb fa fb a b ma mb strict pb : is_seq t = true -> ty_ok t -> ty_ok tb -> equal_implemented tb = true -> strict = true -> widens (elem_ty t) tb = true ->
  (pb = true -> forall r h w h', mb r h = Some (Done w h') -> h' = h) ->
  impl G t fa a ma -> impl G tb fb b mb ->
  impl G (TOpt TUInt) (fa + fb) (e_index_of t tb a b)
    (fun r => bind (ma r) (fun v =>
       unless strict (fun h => (seq_len v =? 0) && negb (pb && done (mb r) h))
         (bind (mb r) (fun w => ret (match find_from w (seq_items v) 0 with Some i => CSome (CUInt i) | None => CNone end))))).
Proof.
  intros Ht Hok Hokb Himp -> Wb Hpure HA HB. fr_of HA. fr_of HB.
  split; [lia|]. intros d B l code l' HC Hw. unfold e_index_of in HC.
  destruct (a d B l) as [ca l1] eqn:Ea. destruct (add_local T32 l1) as [size l2] eqn:E1. destruct (add_local T32 l2) as [off l3] eqn:E2. destruct (add_local T32 l3) as [end_ l4] eqn:E3.
  destruct (b (S d) B l4) as [cb l5] eqn:Eb. destruct (save_to_locals tb l5) as [[is cs] l6] eqn:Es. destruct (add_local T64 l6) as [ix l7] eqn:E4.
  assert (HTe : exists ts, (match t with TList _ te => te | _ => tb end) = ts /\ clar2wasm_ty ts = clar2wasm_ty (elem_ty t)).
  { eexists. split; [reflexivity|]. destruct t; try discriminate; cbn [elem_ty] in *; try apply (widens_wasm _ _ Wb). reflexivity. }
  destruct HTe as (ts & HTe & Hts). rewrite HTe in HC. clear HTe.
  destruct (save_to_locals ts l7) as [[es ce] l8] eqn:Ee. destruct (wasm_equal tb is es l8) as [cq l9] eqn:Eq.
  pose proof (f_equal fst HC) as HC1; pose proof (f_equal snd HC) as HC2; cbn [fst snd] in HC1, HC2; clear HC; subst code l'.
  ext_of HA Ea Xa. destruct (add_ok _ _ _ _ E1 (lext_wf _ _ Xa)) as (X1 & L1 & N1). destruct (add_ok _ _ _ _ E2 (lext_wf _ _ X1)) as (X2 & L2 & N2).
  destruct (add_ok _ _ _ _ E3 (lext_wf _ _ X2)) as (X3 & L3 & N3). ext_of HB Eb Xb.
  destruct (save_ok E _ _ _ _ _ Es (lext_wf _ _ Xb)) as (Xs & His & Hli & Hsv). destruct (save_fresh _ _ _ _ _ Es (lext_wf _ _ Xb)) as (HN1 & HN2).
  destruct (add_ok _ _ _ _ E4 (lext_wf _ _ Xs)) as (X4 & L4 & N4).
  destruct (save_ok E _ _ _ _ _ Ee (lext_wf _ _ X4)) as (Xe & Hes & Hle & Hsve). destruct (save_fresh _ _ _ _ _ Ee (lext_wf _ _ X4)) as (HN3 & HN4).
  assert (Y1 : lext l l2) by (eapply lext_trans; eauto). assert (Y3 : lext l l3) by (eapply lext_trans; eauto). assert (Y4 : lext l l4) by (eapply lext_trans; eauto).
  assert (Y5 : lext l l5) by (eapply lext_trans; eauto). assert (Y6 : lext l l6) by (eapply lext_trans; eauto). assert (Y7 : lext l l7) by (eapply lext_trans; eauto). assert (Y8 : lext l l8) by (eapply lext_trans; eauto).
  assert (V47 : lext l4 l7) by (eapply lext_trans; [exact Xb|eapply lext_trans; eauto]). assert (V45 : lext l4 l5) by exact Xb.
  assert (His7 : Forall (live l7) is) by (eapply live_all; [exact X4|exact His]). assert (His8 : Forall (live l8) is) by (eapply live_all; [exact Xe|exact His7]).
  destruct (wasm_equal_ok E tb Hokb Himp is es l8 cq l9 Eq (lext_wf _ _ Xe) His8 Hes) as (Xq & Hcmp); auto.
  { apply NoDup_app_split. split; auto. split; auto. intros i Hi Hj. rewrite Forall_forall in HN4, His7. apply (HN4 _ Hj). apply His7. exact Hi. }
  { rewrite Hle, Hts. symmetry. f_equal. apply (widens_wasm _ _ Wb). }
  split; [eapply lext_trans; eauto|].
  assert (Ls3 : live l3 size) by (eapply lext_live; [exact X2|exact L1]). assert (Lo4 : live l4 off) by (eapply lext_live; [exact X3|exact L2]).
  assert (Lo7 : live l7 off) by (eapply lext_live; eauto). assert (Le7 : live l7 end_) by (eapply lext_live; eauto).
  intros F r js ls k st sp Q rs Hm HC HL HX HW. rewrite <- !app_assoc.
  assert (Q1 : (size < length ls)%nat) by (destruct L1; lenl). assert (Q2 : (off < length ls)%nat) by (destruct L2; lenl). assert (Q3 : (end_ < length ls)%nat) by (destruct L3; lenl).
  assert (Q4 : (ix < length ls)%nat) by (destruct L4; lenl).
  assert (R1 : (llen l1 <= length ls)%nat) by lenl. assert (R5 : (llen l5 <= length ls)%nat) by lenl. assert (R6 : (llen l6 <= length ls)%nat) by lenl.
  assert (R8 : (llen l8 <= length ls)%nat) by lenl.
  assert (HU : 1 <= unit_size t) by (clear - Ht Hok; destruct t; try discriminate; cbn [unit_size ty_ok] in *; try lia; destruct Hok as (_ & Hok); apply size_pos in Hok; lia).
  assert (Hmx : seq_max t <= max_value_size) by (clear - Ht Hok; destruct t; try discriminate; cbn [ty_ok seq_max] in *; lia). unfold max_value_size in Hmx.
  pose proof (c_lo _ _ _ _ _ _ _ _ _ _ _ HC) as Hlo. pose proof (c_room _ _ _ _ _ _ _ _ _ _ _ HC) as Hrm.
  assert (G1 : 0 + fa <= fa + fb) by lia. assert (G2 : fa + fb <= fa + fb) by lia.
  assert (D1 : off <> size) by (intros ->; exact (N2 L1)). assert (D2 : end_ <> size) by (intros ->; exact (N3 Ls3)). assert (D3 : end_ <> off) by (intros ->; exact (N3 L2)).
  assert (D4 : ix <> off) by (intros ->; exact (N4 (lext_live _ _ _ (lext_trans _ _ _ Xb Xs) Lo4))). assert (D5 : ix <> end_) by (intros ->; exact (N4 (lext_live _ _ _ (lext_trans _ _ _ Xb Xs) L3))).
  eapply (impl_next _ _ _ _ _ _ _ _ _ _ HA Ea); [exact HC|eapply moved_refl; exact HC|exact G1|apply lext_refl; exact Hw|eapply ctx_less; [exact HC|clear - P P0; lia]|exact Hm|exact HX|exact R1|].
  intros v h ls1 st1 sp1 ws HG HM1 Hm1 HLv. cbv beta in Hm1. rewrite Z.add_0_l in HM1.
  pose proof (g_rep _ _ _ _ _ _ _ _ _ _ _ _ _ HG) as Hrv. pose proof (g_type _ _ _ _ _ _ _ _ _ _ _ _ _ HG) as Htv.
  destruct (rep_seq _ _ _ _ _ Ht Hrv) as (pv & -> & A1 & A2 & A3 & A4). pose proof (seq_type_len _ _ Ht Htv) as Hlv.
  pose proof (ctx_msize _ _ _ _ _ _ _ _ _ _ _ _ _ _ _ HC HM1) as Hmz.
  set (nv := seq_len v * unit_size t) in *.
  assert (Z1 : length ls1 = length ls) by (apply lkeep_len with (l := l); apply HM1).
  cbn [rev app]. apply wp_lset. apply wp_ltee. eapply wp_lget; [rewrite nth_lset_ne by auto; apply lset_same; rewrite Z1; exact Q1|].
  eapply wp_b32; [cbn [ibin]; rewrite (Z.mod_small (pv + nv)) by (clear - A1 A2 A3 Hmz Hrm HX0 P P0 Hlo; lia); reflexivity|]. apply wp_lset.
  eapply wp_lget; [rewrite !nth_lset_ne by auto; apply lset_same; rewrite Z1; exact Q1|]. apply wp_eqz32.
  set (ls2 := lset (lset (lset ls1 size _) off _) end_ _).
  assert (Z2 : length ls2 = length ls) by (unfold ls2; rewrite !lset_len; exact Z1).
  assert (K2 : lkeep l1 ls1 ls2).
  { unfold ls2. eapply lkeep_trans0; [eapply lkeep_trans0; apply lkeep_lset|apply lkeep_lset].
    - exact N1.
    - intros Hlive. exact (N2 (lext_live _ _ _ X1 Hlive)).
    - intros Hlive. exact (N3 (lext_live _ _ _ X2 (lext_live _ _ _ X1 Hlive))). }
  assert (O2 : nth_error ls2 off = Some (VI32 pv)) by (unfold ls2; rewrite nth_lset_ne by auto; apply lset_same; rewrite lset_len, Z1; exact Q2).
  assert (T2 : nth_error ls2 end_ = Some (VI32 (pv + nv))) by (unfold ls2; apply lset_same; rewrite !lset_len, Z1; exact Q3).
  assert (HM2 : moved l ls st sp fa ls2 st1 sp1) by (eapply moved_ls'; [exact HM1|exact Xa|exact K2]).
  apply wp_if0. unfold unless in Hm1. rewrite andb_true_l in Hm1.
  destruct (Z.eqb_spec nv 0) as [H0|H0]; cbn [b2z Z.eqb].
  { (* empty *)
    assert (Hl0 : seq_len v = 0) by (unfold nv in H0; clear - H0 HU Hlv; nia). rewrite Hl0 in Hm1. cbn [Z.eqb andb] in Hm1.
    destruct (pb && done (mb r) (shost st1)) eqn:Hpd; cbn [negb] in Hm1; [|discriminate]. apply andb_prop in Hpd as (Hp1 & Hp2).
    unfold done in Hp2. unfold bind in Hm1. destruct (mb r (shost st1)) as [[w h'| |]|] eqn:Hmb; try discriminate. pose proof (Hpure Hp1 _ _ _ _ Hmb) as ->.
    assert (Hit : seq_items v = []) by (pose proof (items_len _ _ Ht Htv) as HI; rewrite Hl0 in HI; destruct (seq_items v); [reflexivity|cbn [length] in HI; clear - HI; lia]).
    rewrite Hit in Hm1. cbn [find_from] in Hm1. unfold ret in Hm1. injection Hm1 as <-.
    apply wp_const. apply wp_const. apply wp_const. apply qb_done. cbn [app].
    apply (HW _ (shost st1) ls2 st1 sp1 [VI32 0; VI64 0; VI64 0] eq_refl). constructor; [eapply moved_more; [exact HM2|clear - P0; lia]| |exact I|reflexivity].
    cbn [rep]. eexists. split; [reflexivity|]. cbn [clar2wasm_ty]. constructor; [|constructor; [|constructor]]; cbn; clear; lia. }
  assert (Hlp : 0 < seq_len v) by (unfold nv in H0; clear - H0 HU Hlv; nia).
  rewrite (proj2 (Z.eqb_neq (seq_len v) 0)) in Hm1 by (clear - Hlp; lia). cbn [andb] in Hm1.
  assert (HCb : ctx G B r F l4 ls2 st1 sp1 fb).
  { eapply ctx_moved; [exact HC|exact Y4|exact HM2|clear; lia]. }
  rewrite <- ?app_assoc.
  eapply (impl_next _ _ _ _ _ _ _ _ _ _ HB Eb); [exact HC|exact HM2|exact G2|exact Y4|exact HCb|exact Hm1|apply exits_block; exact HX|exact R5|].
  intros w h' ls3 st3 sp3 wsw HGb HM3 Hm3 HLw. unfold ret in Hm3.
  pose proof (g_moved _ _ _ _ _ _ _ _ _ _ _ _ _ HGb) as HMb. pose proof (g_rep _ _ _ _ _ _ _ _ _ _ _ _ _ HGb) as Hrw. pose proof (g_type _ _ _ _ _ _ _ _ _ _ _ _ _ HGb) as Htw.
  assert (Z3 : length ls3 = length ls) by (apply lkeep_len with (l := l); apply HM3).
  assert (Hrv3 : rep (smem st3) (vis F sp3) t v [VI32 pv; VI32 nv]) by (eapply rep_moved; [exact HMb|exact Hrv]).
  assert (Hmz3 : msize (smem st3) = msize (smem st)) by (eapply ctx_msize; [exact HC|exact HM3]).
  eapply Hsv; [exact HLw|rewrite Z3; exact R6|]. intros ls4 K4 HV4. cbn [app]. apply wp_const. apply wp_lset.
  assert (Z4 : length ls4 = length ls) by (rewrite (lkeep_len _ _ _ K4); exact Z3).
  set (ls5 := lset ls4 ix _).
  assert (Z5 : length ls5 = length ls) by (unfold ls5; rewrite lset_len; exact Z4).
  assert (K25 : lkeep l4 ls2 ls5).
  { eapply lkeep_trans0; [apply HMb|]. eapply lkeep_trans0; [eapply lkeep_weaken; [exact Xb|exact K4]|]. apply lkeep_lset. intros Hlive. apply N4. eapply lext_live; [|exact Hlive]. eapply lext_trans; eauto. }
  assert (HM5 : moved l ls st sp (fa + fb) ls5 st3 sp3).
  { eapply moved_ls'; [exact HM3|exact Y4|]. eapply lkeep_trans0; [eapply lkeep_weaken; [exact Xb|exact K4]|]. apply lkeep_lset. intros Hlive. apply N4. eapply lext_live; [|exact Hlive]. eapply lext_trans; eauto. }
  set (u := unit_size t) in *. clear Hm1 Hm HG HM1 HM2 HCb HGb HMb.
  eapply wp_loop0 with (z := seq_len v) (I := fun z s => exists lsx i, s = mkcfg lsx [] st3 /\ 0 <= i < seq_len v /\ z = seq_len v - i /\ moved l ls st sp (fa + fb) lsx st3 sp3 /\
     nth_error lsx off = Some (VI32 (pv + i * u)) /\ nth_error lsx end_ = Some (VI32 (pv + nv)) /\ nth_error lsx ix = Some (VI64 i) /\ lvals lsx is wsw /\
     find_from w (skipn (Z.to_nat i) (seq_items v)) i = find_from w (seq_items v) 0).
  { clear - Hlp; lia. }
  { exists ls5, 0. split; [reflexivity|]. split; [clear - Hlp; lia|]. split; [clear; lia|]. split; [exact HM5|].
    split; [rewrite Z.mul_0_l, Z.add_0_r, (lkeep_get _ _ _ _ K25 Lo4); exact O2|]. split; [rewrite (lkeep_get _ _ _ _ K25 L3); exact T2|].
    split; [unfold ls5; apply lset_same; rewrite Z4; exact Q4|]. split; [|reflexivity].
    unfold ls5. eapply lvals_keep; [apply lkeep_lset; exact N4|exact His|exact HV4]. }
  intros z ls0 st0 Hz (lsx & i & Hcfg & Hi & Hzi & HMx & Ox & Tx & Ix & Vx & Hf). apply cfg_inj in Hcfg as (-> & ->).
  assert (Zx : length lsx = length ls) by (apply lkeep_len with (l := l); apply HMx).
  change (elem_code t off) with (fetch_code t off).
  eapply (fetch_ok E t v i pv off); [exact Ht|exact Htv|exact Hrv3|exact Hi|exact Ox|rewrite Hmz3; clear - A3 Hmz Hrm HX0 P P0 Hlo; fold nv; lia|apply A1|].
  intros x wx Hx Hrx Htx.
  eapply Hsve; [rewrite Hts; rewrite (rep_len _ _ _ _ _ Hrx); reflexivity|rewrite Zx; exact R8|]. intros ls6 K6 V6.
  assert (Z6 : length ls6 = length ls) by (rewrite (lkeep_len _ _ _ K6); exact Zx).
  eapply Hcmp; [rewrite Z6; exact HL|eapply lvals_keep; [exact K6|exact His7|exact Vx]|exact V6|exact Htw|eapply widens_has_type; [exact Wb|exact Htx]|exact Hrw|eapply widens_rep; [exact Wb|exact Hrx]|].
  intros b4 ls7 Hb4 K7. apply veqb_dec in Hb4.
  assert (K : lkeep l7 lsx ls7).
  { eapply lkeep_trans0; [exact K6|]. eapply lkeep_unhide; [exact Xe|exact HN4|exact K7]. }
  assert (Z7 : length ls7 = length ls) by (rewrite (lkeep_len _ _ _ K); exact Zx).
  assert (O7 : nth_error ls7 off = Some (VI32 (pv + i * u))) by (rewrite (lkeep_get _ _ _ _ K Lo7); exact Ox).
  assert (T7 : nth_error ls7 end_ = Some (VI32 (pv + nv))) by (rewrite (lkeep_get _ _ _ _ K Le7); exact Tx).
  assert (I7 : nth_error ls7 ix = Some (VI64 i)) by (rewrite (lkeep_get _ _ _ _ K L4); exact Ix).
  assert (HM7 : moved l ls st sp (fa + fb) ls7 st3 sp3) by (eapply moved_ls'; [exact HMx|exact Y7|exact K]).
  rewrite (items_skip _ _ _ (proj1 Hi) Hx) in Hf. cbn [find_from] in Hf. rewrite Hb4 in Hf.
  assert (Hsm : [VI64 i; VI64 0] = [VI64 (i mod 2 ^ 64); VI64 (i / 2 ^ 64 mod 2 ^ 64)]) by (symmetry; apply small_words; clear - Hi Hlv Hmx; lia).
  cbn [app]. apply wp_if0. destruct b4; cbn [b2z Z.eqb].
  - rewrite <- Hf in Hm3. pose proof (inj_some _ _ Hm3) as <-. apply wp_const. eapply wp_lget; [exact I7|]. apply wp_const. apply qb_done. apply wp_nil. unfold cont, qloop. cbn [cstack app clocals cstore]. unfold setstk. cbn [clocals cstore cstack app].
    apply wp_nil. unfold cont, qblock. cbn [exit_block cstack setstk app].
    apply (HW _ (shost st3) ls7 st3 sp3 [VI32 1; VI64 i; VI64 0] eq_refl). constructor; [exact HM7| | |reflexivity].
    + rewrite Hsm. cbn [rep]. eexists. split; reflexivity.
    + cbn [has_type]. clear - Hi Hlv Hmx. lia.
  - assert (Hnx : (i + 1) * u <= nv /\ (i + 1 < seq_len v -> (i + 1) * u < nv)) by (unfold nv; clear - Hi HU; nia).
    assert (Hge : i + 1 = seq_len v -> (i + 1) * u = nv) by (intros ->; reflexivity).
    eapply wp_lget; [exact O7|]. apply wp_const. change (elem_size t) with u.
    eapply wp_b32; [cbn [ibin]; replace (pv + i * u + u) with (pv + (i + 1) * u) by (clear; lia); rewrite (Z.mod_small (pv + (i + 1) * u)) by (clear - Hnx A1 A2 A3 Hmz Hrm HX0 P P0 Hlo Hi HU; nia); reflexivity|].
    apply wp_ltee. eapply wp_lget; [rewrite nth_lset_ne by auto; exact T7|]. apply wp_r32. cbn [irel]. apply wp_if0.
    assert (HM8 : moved l ls st sp (fa + fb) (lset ls7 off (VI32 (pv + (i + 1) * u))) st3 sp3).
    { eapply moved_ls'; [exact HM7|exact Y1|]. apply lkeep_lset. exact N2. }
    destruct (Z.eq_dec (i + 1) (seq_len v)) as [He|He].
    + rewrite (proj2 (Z.leb_le (pv + nv) (pv + (i + 1) * u))) by (rewrite (Hge He); clear; lia). cbn [b2z Z.eqb].
      assert (Hsk : skipn (Z.to_nat (i + 1)) (seq_items v) = []) by (apply skipn_all2; pose proof (items_len _ _ Ht Htv) as HI; clear - HI He; lia).
      rewrite Hsk in Hf. cbn [find_from] in Hf. rewrite <- Hf in Hm3. pose proof (inj_some _ _ Hm3) as <-.
      apply wp_const. eapply wp_lget; [rewrite nth_lset_ne by auto; exact I7|]. apply wp_const. apply qb_done. apply qb_done. apply wp_nil. unfold cont, qloop. cbn [cstack app clocals cstore]. unfold setstk. cbn [clocals cstore cstack app].
      apply wp_nil. unfold cont, qblock. cbn [exit_block cstack setstk app].
      apply (HW _ (shost st3) _ st3 sp3 [VI32 0; VI64 i; VI64 0] eq_refl). constructor; [exact HM8| |exact I|reflexivity].
      cbn [rep]. eexists. split; [reflexivity|]. cbn [clar2wasm_ty]. constructor; [|constructor; [|constructor]]; cbn; clear - Hi Hlv Hmx; lia.
    + assert (Hlt : i + 1 < seq_len v) by (clear - Hi He; lia).
      rewrite (proj2 (Z.leb_gt (pv + nv) (pv + (i + 1) * u))) by (clear - Hnx Hlt; lia). cbn [b2z Z.eqb].
      eapply wp_lget; [rewrite nth_lset_ne by auto; exact I7|]. apply wp_const. eapply wp_b64; [cbn [ibin]; rewrite (Z.mod_small (i + 1)) by (clear - Hi Hlv Hmx; lia); reflexivity|]. apply wp_lset.
      apply wp_br. unfold qblock, cont. cbn [exit_block]. unfold qloop. unfold setstk. cbn [clocals cstore cstack app firstn].
      exists (seq_len v - (i + 1)). split; [clear - Hlt Hzi Hi; lia|]. eexists; exists (i + 1). split; [reflexivity|]. split; [clear - Hi Hlt; lia|]. split; [reflexivity|].
      split; [eapply moved_ls'; [exact HM8|exact Y6|apply lkeep_lset; exact N4]|].
      split; [rewrite nth_lset_ne by auto; apply lset_same; rewrite Z7; exact Q2|]. split; [rewrite !nth_lset_ne by auto; exact T7|].
      split; [apply lset_same; rewrite lset_len, Z7; exact Q4|]. split; [|exact Hf].
      eapply lvals_keep; [apply lkeep_lset; exact N4|exact His|]. 
      apply lvals_lset; [eapply Forall_impl; [|exact HN2]; intros i0 Hi0 ->; apply Hi0; eapply lext_live; [exact Xb|exact Lo4]|].
      eapply lvals_keep; [exact K|exact His7|exact Vx].
Qed.
End Index.
