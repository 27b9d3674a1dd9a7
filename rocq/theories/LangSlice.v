(** * Correctness of emitted expression code: slice? (proof support) *)
From Coq Require Import ZArith String List Bool Lia.
Import ListNotations.
From Verif Require Import ReadProofs Wasm Std StdEnv WasmLogic WasmTac Mem MemFacts Bytes Spec SpecBytes SpecUtf8 ArithProofs Clar Rep RepFacts Emit EmitFacts EmitProofs Equal EqualProofs
  CallProofs ArgProofs Ast SpecLang Lang Typing LangFacts LangBase LangCtl LangEarly LangMem LangSeq LangList LangConcat.
Open Scope string_scope.
Open Scope list_scope.
Open Scope Z_scope.

Lemma sublist_split {A} (l : list A) i j : 0 <= i <= j -> j <= Z.of_nat (length l) ->
  exists x y, l = x ++ sublist l i j ++ y /\ Z.of_nat (length x) = i /\ Z.of_nat (length (sublist l i j)) = j - i.
Proof.
  intros Hi Hj. unfold sublist. exists (firstn (Z.to_nat i) l), (skipn (Z.to_nat (j - i)) (skipn (Z.to_nat i) l)).
  rewrite firstn_skipn, firstn_skipn. split; [reflexivity|]. rewrite !firstn_length, skipn_length. lia.
Qed.
Lemma elems_split m P t xs : forall ys a, rep_elems m P t (xs ++ ys) a -> rep_elems m P t xs a /\ rep_elems m P t ys (a + Z.of_nat (length xs) * get_type_size t).
Proof.
  induction xs as [|x xs IH]; intros ys a H; cbn [app length] in *.
  - split; [exact I|]. replace (a + Z.of_nat 0 * get_type_size t) with a by lia. exact H.
  - cbn [rep_elems] in *. destruct H as (H1 & H2). apply IH in H2. destruct H2 as (H2 & H3). rewrite words_size_ty in *. split; [split; auto|].
    rewrite Nat2Z.inj_succ, Z.mul_succ_l. replace (a + (Z.of_nat (length xs) * get_type_size t + get_type_size t)) with (a + get_type_size t + Z.of_nat (length xs) * get_type_size t) by lia. exact H3.
Qed.

(** a part of a sequence in memory *)
Lemma slice_rep m (P : Z -> Prop) t v o i j : is_seq t = true -> rep m P t v [VI32 o; VI32 (seq_len v * unit_size t)] ->
  0 <= i <= j -> j <= seq_len v -> o + i * unit_size t < m32 ->
  rep m P t (seq_slice v i j) [VI32 (o + i * unit_size t); VI32 ((j - i) * unit_size t)].
Proof.
  intros Ht Hr Hi Hj Ho. pose proof (unit_nonneg t) as HU.
  destruct (rep_seq _ _ _ _ _ Ht Hr) as (o1 & He & H1 & H2 & H3 & H4). injection He as <-.
  assert (B1 : 0 <= i * unit_size t) by nia. assert (B2 : (j - i) * unit_size t + i * unit_size t <= seq_len v * unit_size t) by nia. assert (B3 : 0 <= (j - i) * unit_size t) by nia.
  assert (HIn : inside P (o + i * unit_size t) ((j - i) * unit_size t)) by (intros x Hx; apply H4; lia).
  destruct t; try discriminate; destruct v; cbn [rep] in Hr; try contradiction; cbn [seq_len unit_size seq_slice rep] in *.
  - destruct (sublist_split bs i j Hi Hj) as (x & y & Hs & Hx & Hy). destruct Hr as (o1 & He & H5 & H6 & H7 & H8). injection He as <-.
    rewrite Hs in H7. apply holds_app in H7. destruct H7 as (_ & H7). apply holds_app in H7. destruct H7 as (H7 & _). rewrite Hx in H7.
    exists (o + i * 1). rewrite Hy, !Z.mul_1_r in *. split; [reflexivity|]. split; [lia|]. split; [lia|]. split; [exact H7|exact HIn].
  - destruct (sublist_split bs i j Hi Hj) as (x & y & Hs & Hx & Hy). destruct Hr as (o1 & He & H5 & H6 & H7 & H8). injection He as <-.
    rewrite Hs in H7. apply holds_app in H7. destruct H7 as (_ & H7). apply holds_app in H7. destruct H7 as (H7 & _). rewrite Hx in H7.
    exists (o + i * 1). rewrite Hy, !Z.mul_1_r in *. split; [reflexivity|]. split; [lia|]. split; [lia|]. split; [exact H7|exact HIn].
  - destruct (sublist_split cs i j Hi Hj) as (x & y & Hs & Hx & Hy). destruct Hr as (o1 & He & H5 & H6 & H7 & H8). injection He as <-.
    rewrite Hs, !flat_map_app in H7. apply holds_app in H7. destruct H7 as (_ & H7). apply holds_app in H7. destruct H7 as (H7 & _). rewrite utf8_len, Hx in H7.
    exists (o + i * 4). rewrite utf8_len, Hy. split; [reflexivity|]. split; [lia|]. split; [lia|]. split; [exact H7|exact HIn].
  - destruct (sublist_split vs i j Hi Hj) as (x & y & Hs & Hx & Hy). destruct Hr as (o1 & He & H5 & H6 & H7 & H8 & H9). injection He as <-.
    match type of H9 with _ => change (rep_elems m P t vs o) in H9 end. rewrite Hs in H9. apply elems_split in H9. destruct H9 as (_ & H9). apply elems_split in H9. destruct H9 as (H9 & _). rewrite Hx in H9.
    exists (o + i * get_type_size t). match goal with |- context [_ /\ ?g] => match g with (_ (sublist vs i j) _) => change g with (rep_elems m P t (sublist vs i j) (o + i * get_type_size t)) end end. rewrite words_size_ty, Hy. split; [reflexivity|]. split; [lia|]. split; [lia|]. split; [lia|]. split; [exact HIn|exact H9].
Qed.
Lemma firstn_forall {A} (P : A -> Prop) l n : Forall P l -> Forall P (firstn n l).
Proof. intros H. rewrite <- (firstn_skipn n l) in H. apply Forall_app in H. apply H. Qed.
Lemma skipn_forall {A} (P : A -> Prop) l n : Forall P l -> Forall P (skipn n l).
Proof. intros H. rewrite <- (firstn_skipn n l) in H. apply Forall_app in H. apply H. Qed.
Lemma sublist_forall {A} (P : A -> Prop) l i j : Forall P l -> Forall P (sublist l i j).
Proof. intros H. apply firstn_forall, skipn_forall, H. Qed.
Lemma sublist_len {A} (l : list A) i j : (length (sublist l i j) <= length l)%nat.
Proof. unfold sublist. rewrite firstn_length, skipn_length. lia. Qed.
Lemma slice_type t v i j : is_seq t = true -> has_type t v -> has_type t (seq_slice v i j).
Proof.
  destruct t; try discriminate; intros _; destruct v; cbn [has_type seq_slice]; try contradiction; intros (H1 & H2);
    (split; [|apply sublist_forall; exact H2]); match goal with |- context [sublist ?l ?i ?j] => pose proof (sublist_len l i j) end; lia.
Qed.

Section Slice.
Context {HS : Type} {CH : chain HS} (E : env HS) (HE : has_std E) (rt : ty) (L : list (ty * value * Z)) (X : Z) (HX0 : 0 <= X).
Notation wp := (wp E).
Notation impl := (impl E rt L X).
Notation ctx := (ctx L X).
Notation impl_next := (impl_next E rt L X).
Notation impl_fr := (impl_fr E rt L X).
Notation impl_ext := (impl_ext E rt L X).
Ltac fr_of H := let P := fresh "P" in pose proof (impl_fr _ _ _ _ _ H) as P.
Ltac ext_of H E X := let W := fresh in
  match type of E with ?c ?d ?B ?l = _ =>
    assert (W : lwf l) by (assumption || (eapply lext_wf; eassumption));
    pose proof (impl_ext _ _ _ _ _ _ _ _ _ _ H E W) as X; clear W end.
Ltac lenl := repeat match goal with H : lext _ _ |- _ => apply lext_len in H | H : moved _ _ _ _ _ _ _ _ |- _ => apply m_ls, lkeep_len in H end; lia.

(** an index and the flag telling that it is beyond any sequence *)
Lemma big_index n : 0 <= n < 2 ^ 128 -> forall big, big = (1048576 <? n mod 2 ^ 64) || (0 <? n / 2 ^ 64 mod 2 ^ 64) ->
  (big = false -> n <= 1048576 /\ n mod 2 ^ 64 = n) /\ (n <= 1048576 -> big = false).
Proof.
  intros Hn big ->. split.
  - intros Hb. apply orb_false_iff in Hb. destruct Hb as (Hb2 & Hb1). apply Z.ltb_ge in Hb1, Hb2.
    assert (H0 : n / 2 ^ 64 < 2 ^ 64) by (apply Z.div_lt_upper_bound; lia). assert (H1 : 0 <= n / 2 ^ 64) by (apply Z.div_pos; lia).
    rewrite Z.mod_small in Hb1 by lia. assert (n < 2 ^ 64) by (pose proof (Z.div_mod n (2 ^ 64)); pose proof (Z.mod_pos_bound n (2 ^ 64)); lia).
    rewrite (Z.mod_small n) in * by lia. lia.
  - intros H. rewrite (Z.div_small n), (Z.mod_small n) by lia. apply orb_false_iff. split; apply Z.ltb_ge; [|cbn]; lia.
Qed.

Lemma slice_flag u v pv n m : 1 <= u < m32 -> 0 <= pv < m32 -> 0 <= n < 2 ^ 128 -> 0 <= m < 2 ^ 128 -> 0 <= v <= 1048576 ->
  (2 ^ 32 <=? n) && (m <=? v) = false -> forall big, big = (1048576 <? m mod 2 ^ 64) || (0 <? m / 2 ^ 64 mod 2 ^ 64) ->
  ((pv + (m mod 2 ^ 64 * u) mod m64) mod m64 <? (pv + (n mod 2 ^ 64 * u) mod m64) mod m64) || ((v * u <? (m mod 2 ^ 64 * u) mod m64) || big) =
  negb ((n <=? m) && (m <=? v)) /\
  (n <= m -> m <= v -> (pv + (m mod 2 ^ 64 * u) mod m64) mod m64 = pv + m * u /\ (pv + (n mod 2 ^ 64 * u) mod m64) mod m64 = pv + n * u).
Proof.
  intros Hu Hp Hn Hm Hv Hg big Hbig. destruct (big_index m Hm big Hbig) as (G1 & G2). clear Hbig. destruct (Z.leb_spec m v) as [Hmv|Hmv].
  - rewrite andb_true_r in *. apply Z.leb_gt in Hg. rewrite (G2 ltac:(lia)), orb_false_r. rewrite (Z.mod_small m), (Z.mod_small n) by lia.
    assert (M1 : 0 <= m * u < 2 ^ 60) by nia. assert (M2 : 0 <= n * u <= 2 ^ 64 - 2 ^ 32) by (change (2 ^ 64 - 2 ^ 32) with (2 ^ 32 * (m32 - 1)); nia).
    rewrite (Z.mod_small (m * u)), (Z.mod_small (n * u)) by lia. rewrite (Z.mod_small (pv + m * u)), (Z.mod_small (pv + n * u)) by lia. split; [|auto].
    assert (M3 : v * u <? m * u = false) by (apply Z.ltb_ge; clear - Hu Hmv Hm; nia). rewrite M3, orb_false_r.
    destruct (Z.leb_spec n m) as [A|A]; cbn [negb]; [apply Z.ltb_ge|apply Z.ltb_lt]; clear - Hu A; nia.
  - rewrite andb_false_r. cbn [negb]. split; [|lia]. destruct big; [rewrite !orb_true_r; reflexivity|]. destruct (G1 eq_refl) as (G3 & G4).
    rewrite orb_false_r, G4. assert (M1 : 0 <= m * u < 2 ^ 60) by nia. rewrite (Z.mod_small (m * u)) by lia.
    assert (M3 : v * u <? m * u = true) by (apply Z.ltb_lt; clear - Hu Hmv Hm; nia). rewrite M3, orb_true_r. reflexivity.
Qed.

Ltac lg := repeat (rewrite nth_lset_ne by congruence); apply lset_same; rewrite ?lset_len; assumption.

Lemma slice_ok G t fa fi fj a i j ma mi mj strict : is_seq t = true -> ty_ok t -> elem_size t < m32 -> strict = true ->
  impl G t fa a ma -> impl G TUInt fi i mi -> impl G TUInt fj j mj ->
  impl G (TOpt t) (fa + fi + fj) (e_slice t a i j)
    (fun r => bind (ma r) (fun v => bind (mi r) (fun x => bind (mj r) (fun y =>
       match x, y with
       | CUInt n, CUInt m => unless strict (fun _ => (2 ^ 32 <=? n) && (m <=? seq_len v))
           (ret (if (n <=? m) && (m <=? seq_len v) then CSome (seq_slice v n m) else CNone))
       | _, _ => bad
       end)))).
Proof.
  intros Ht Hok Hsm -> HA HB HJ. fr_of HA. fr_of HB. fr_of HJ. split; [lia|]. intros d B l code l' HC Hw. unfold e_slice in HC.
  destruct (a d B l) as [ca l1] eqn:Ea. destruct (add_local T64 l1) as [len l2] eqn:E1. destruct (i d B l2) as [ci l3] eqn:Ei.
  destruct (add_local T32 l3) as [ov l4] eqn:E2. destruct (add_local T64 l4) as [lo l5] eqn:E3. destruct (add_local T64 l5) as [base l6] eqn:E4.
  destruct (j d B l6) as [cj l7] eqn:Ej. destruct (add_local T32 l7) as [ov2 l8] eqn:E5. destruct (add_local T64 l8) as [hi l9] eqn:E6.
  change (scale_code t) with (index_code t) in HC.
  pose proof (f_equal fst HC) as HC1; pose proof (f_equal snd HC) as HC2; cbn [fst snd] in HC1, HC2; clear HC; subst code l'.
  ext_of HA Ea Xa. destruct (add_ok _ _ _ _ E1 (lext_wf _ _ Xa)) as (X1 & L1 & N1). ext_of HB Ei Xi.
  destruct (add_ok _ _ _ _ E2 (lext_wf _ _ Xi)) as (X2 & L2 & N2). destruct (add_ok _ _ _ _ E3 (lext_wf _ _ X2)) as (X3 & L3 & N3). destruct (add_ok _ _ _ _ E4 (lext_wf _ _ X3)) as (X4 & L4 & N4).
  ext_of HJ Ej Xj. destruct (add_ok _ _ _ _ E5 (lext_wf _ _ Xj)) as (X5 & L5 & N5). destruct (add_ok _ _ _ _ E6 (lext_wf _ _ X5)) as (X6 & L6 & N6).
  assert (Y2 : lext l l2) by (eapply lext_trans; eauto). assert (Y3 : lext l l3) by (eapply lext_trans; eauto). assert (Y4 : lext l l4) by (eapply lext_trans; eauto).
  assert (Y5 : lext l l5) by (eapply lext_trans; eauto). assert (Y6 : lext l l6) by (eapply lext_trans; eauto). assert (Y7 : lext l l7) by (eapply lext_trans; eauto).
  assert (Y8 : lext l l8) by (eapply lext_trans; eauto). split; [eapply lext_trans; eauto|].
  assert (A1 : live l6 len) by (eapply lext_live; [eapply lext_trans; [exact Xi|]; eapply lext_trans; [exact X2|]; eapply lext_trans; eauto|exact L1]).
  assert (A2 : live l6 lo) by (eapply lext_live; [exact X4|exact L3]).
  intros F r js ls k st sp Q rs Hm HC HL HX HW. rewrite <- !app_assoc.
  assert (R1 : (llen l1 <= length ls)%nat) by lenl. assert (R3 : (llen l3 <= length ls)%nat) by lenl. assert (R7 : (llen l7 <= length ls)%nat) by lenl.
  assert (G1 : 0 + fa <= fa + fi + fj) by lia. assert (G2 : 0 + fa + fi <= fa + fi + fj) by lia. assert (G3 : 0 + fa + fi + fj <= fa + fi + fj) by lia.
  assert (J2 : fi <= fa + fi + fj - (0 + fa)) by lia.
  assert (Q1 : (len < length ls)%nat) by (destruct L1 as (L1 & _); lenl). assert (Q2 : (ov < length ls)%nat) by (destruct L2 as (L2 & _); lenl).
  assert (Q3 : (lo < length ls)%nat) by (destruct L3 as (L3 & _); lenl). assert (Q4 : (base < length ls)%nat) by (destruct L4 as (L4 & _); lenl).
  assert (Q5 : (ov2 < length ls)%nat) by (destruct L5 as (L5 & _); lenl). assert (Q6 : (hi < length ls)%nat) by (destruct L6 as (L6 & _); lenl).
  assert (D1 : ov <> len) by (intros ->; exact (N2 (lext_live _ _ _ Xi L1))).
  assert (D2 : lo <> ov) by (intros ->; exact (N3 L2)).
  assert (D3 : lo <> len) by (intros ->; exact (N3 (lext_live _ _ _ X2 (lext_live _ _ _ Xi L1)))).
  assert (D4 : base <> lo) by (intros ->; exact (N4 L3)).
  assert (D5 : base <> ov) by (intros ->; exact (N4 (lext_live _ _ _ X3 L2))).
  assert (D6 : base <> len) by (intros ->; exact (N4 (lext_live _ _ _ X3 (lext_live _ _ _ X2 (lext_live _ _ _ Xi L1))))).
  assert (D7 : ov2 <> len) by (intros ->; exact (N5 (lext_live _ _ _ Xj A1))).
  assert (D8 : ov2 <> lo) by (intros ->; exact (N5 (lext_live _ _ _ Xj A2))).
  assert (D9 : ov2 <> base) by (intros ->; exact (N5 (lext_live _ _ _ Xj L4))).
  assert (D10 : hi <> len) by (intros ->; exact (N6 (lext_live _ _ _ X5 (lext_live _ _ _ Xj A1)))).
  assert (D11 : hi <> lo) by (intros ->; exact (N6 (lext_live _ _ _ X5 (lext_live _ _ _ Xj A2)))).
  assert (D12 : hi <> base) by (intros ->; exact (N6 (lext_live _ _ _ X5 (lext_live _ _ _ Xj L4)))).
  assert (D13 : hi <> ov2) by (intros ->; exact (N6 L5)).
  eapply (impl_next _ _ _ _ _ _ _ _ _ _ HA Ea);
    [exact HC|eapply moved_refl; exact HC|exact G1|apply lext_refl; exact Hw|eapply ctx_less; [exact HC|clear - P0 P1; lia]|exact Hm|exact HX|exact R1|].
  intros v h1 ls1 st1 sp1 ws HG HM1 Hm1 HL1. cbv beta in Hm1.
  destruct (rep_seq _ _ _ _ _ Ht (g_rep _ _ _ _ _ _ _ _ _ _ _ _ _ HG)) as (pv & -> & V1 & V2 & V3 & V4).
  pose proof (g_type _ _ _ _ _ _ _ _ _ _ _ _ _ HG) as Htv. pose proof (seq_type_len _ _ Ht Htv) as Hlv. set (nv := seq_len v * unit_size t) in *.
  cbn [rev app]. apply wp_extu. apply wp_ltee. rewrite <- ?app_assoc.
  assert (Z1 : length ls1 = length ls) by (apply lkeep_len with (l := l); apply HM1).
  assert (HMa : moved l ls st sp (0 + fa) (lset ls1 len (VI64 nv)) st1 sp1) by (eapply moved_ls'; [exact HM1|exact Xa|apply lkeep_lset; exact N1]).
  eapply (impl_next _ _ _ _ _ _ _ _ _ _ HB Ei);
    [exact HC|exact HMa|exact G2|exact Y2|eapply ctx_moved; [exact HC|exact Y2|exact HMa|exact G2]|exact Hm1|exact HX|exact R3|].
  intros x h2 ls2 st2 sp2 ws2 HG2 HM2 Hm2 HL2. cbv beta in Hm2.
  assert (HR2 : rep (smem st2) (vis F sp2) t v [VI32 pv; VI32 nv]) by (eapply rep_moved; [apply HG2|apply HG]).
  assert (T2 : nth_error ls2 len = Some (VI64 nv)).
  { rewrite (lkeep_get _ _ _ _ (m_ls _ _ _ _ _ _ _ _ (g_moved _ _ _ _ _ _ _ _ _ _ _ _ _ HG2)) L1). apply lset_same. rewrite Z1. exact Q1. }
  pose proof (g_type _ _ _ _ _ _ _ _ _ _ _ _ _ HG2) as Hti. pose proof (g_rep _ _ _ _ _ _ _ _ _ _ _ _ _ HG2) as Hri.
  destruct x; cbn [has_type] in Hti; try contradiction. cbn [rep] in Hri. subst ws2. rename z into n.
  assert (Z2 : length ls2 = length ls) by (apply lkeep_len with (l := l); apply HM2).
  cbn [rev app]. apply wp_const. apply wp_r64. apply wp_lset. apply wp_ltee. apply wp_const. apply wp_r64.
  eapply wp_lget; [rewrite nth_lset_ne by auto; apply lset_same; rewrite Z2; exact Q2|]. eapply wp_b32; [apply b2z_or|]. apply wp_lset.
  match goal with |- context [lset (lset (lset ls2 ov ?x) lo ?y) ov ?z] => set (ls3 := lset (lset (lset ls2 ov x) lo y) ov z) end.
  assert (Z3 : length ls3 = length ls) by (unfold ls3; rewrite !lset_len; exact Z2).
  assert (T3 : nth_error ls3 len = Some (VI64 nv)) by (unfold ls3; rewrite !nth_lset_ne by auto; exact T2).
  eapply wp_lget; [unfold ls3; rewrite nth_lset_ne by auto; apply lset_same; rewrite lset_len, Z2; exact Q3|]. rewrite <- ?app_assoc.
  apply index_ok; [exact Ht|apply Z.mod_pos_bound; lia|]. set (ln := (n mod 2 ^ 64 * unit_size t) mod m64).
  cbn [app]. apply wp_ltee. apply wp_r64. eapply wp_lget; [rewrite nth_lset_ne by auto; unfold ls3; apply lset_same; rewrite !lset_len, Z2; exact Q2|].
  eapply wp_b32; [apply b2z_or|]. apply wp_lset. apply wp_extu. apply wp_ltee.
  match goal with |- context [lset (lset (lset ls3 lo ?x) ov ?y) base ?z] => set (ls4 := lset (lset (lset ls3 lo x) ov y) base z) end.
  assert (Z4 : length ls4 = length ls) by (unfold ls4; rewrite !lset_len; exact Z3).
  assert (T4 : nth_error ls4 len = Some (VI64 nv)) by (unfold ls4; rewrite !nth_lset_ne by auto; exact T3).
  eapply wp_lget; [unfold ls4; rewrite !nth_lset_ne by auto; apply lset_same; rewrite Z3; exact Q3|].
  eapply wp_b64; [cbn [ibin]; reflexivity|]. apply wp_lset. set (Lf := (pv + ln) mod m64). set (ls5 := lset ls4 lo (VI64 Lf)).
  assert (Z5 : length ls5 = length ls) by (unfold ls5; rewrite !lset_len; exact Z4).
  assert (T5 : nth_error ls5 len = Some (VI64 nv)) by (unfold ls5; rewrite !nth_lset_ne by auto; exact T4).
  assert (U5 : nth_error ls5 lo = Some (VI64 Lf)) by (unfold ls5; apply lset_same; rewrite Z4; exact Q3).
  assert (W5 : nth_error ls5 base = Some (VI64 pv)) by (unfold ls5; rewrite !nth_lset_ne by auto; unfold ls4; apply lset_same; rewrite !lset_len, Z3; exact Q4).
  assert (K5 : lkeep l ls2 ls5).
  { unfold ls5, ls4, ls3. assert (Nov : ~ live l ov) by (intros Hlive; apply N2; exact (lext_live _ _ _ Y3 Hlive)). assert (Nlo : ~ live l lo) by (intros Hlive; apply N3; exact (lext_live _ _ _ Y4 Hlive)).
    assert (Nb : ~ live l base) by (intros Hlive; apply N4; exact (lext_live _ _ _ Y5 Hlive)).
    do 6 (eapply lkeep_trans0; [|apply lkeep_lset; assumption]). apply lkeep_lset; assumption. }
  clearbody ls3 ls4 ls5. clear T2 T3 T4 Z3 Z4 ls3 ls4 HMa Z1.
  assert (HMb : moved l ls st sp (0 + fa + fi) ls5 st2 sp2) by (eapply moved_ls; [exact HM2|exact K5]).
  eapply wp_lget; [exact T5|]. rewrite <- ?app_assoc.
  eapply (impl_next _ _ _ _ _ _ _ _ _ _ HJ Ej);
    [exact HC|exact HMb|exact G3|exact Y6|eapply ctx_moved; [exact HC|exact Y6|exact HMb|exact G3]|exact Hm2|exact HX|exact R7|].
  intros y h3 ls6 st3 sp3 ws3 HG3 HM3 Hm3 HL3. cbv beta in Hm3.
  assert (HR3 : rep (smem st3) (vis F sp3) t v [VI32 pv; VI32 nv]) by (eapply rep_moved; [apply HG3|exact HR2]).
  pose proof (m_ls _ _ _ _ _ _ _ _ (g_moved _ _ _ _ _ _ _ _ _ _ _ _ _ HG3)) as K6.
  assert (U6 : nth_error ls6 lo = Some (VI64 Lf)) by (rewrite (lkeep_get _ _ _ _ K6 A2); exact U5).
  assert (W6 : nth_error ls6 base = Some (VI64 pv)) by (rewrite (lkeep_get _ _ _ _ K6 L4); exact W5).
  pose proof (g_type _ _ _ _ _ _ _ _ _ _ _ _ _ HG3) as Htj. pose proof (g_rep _ _ _ _ _ _ _ _ _ _ _ _ _ HG3) as Hrj.
  destruct y; cbn [has_type] in Htj; try contradiction. cbn [rep] in Hrj. subst ws3. rename z into m.
  assert (Z6 : length ls6 = length ls) by (apply lkeep_len with (l := l); apply HM3).
  unfold unless in Hm3. destruct (true && _) eqn:Hg in Hm3; [discriminate|]. cbn [andb] in Hg. unfold ret in Hm3. injection Hm3 as <-.
  cbn [rev app]. apply wp_const. apply wp_r64. apply wp_lset. apply wp_ltee. apply wp_const. apply wp_r64.
  eapply wp_lget; [rewrite nth_lset_ne by auto; apply lset_same; rewrite Z6; exact Q5|]. eapply wp_b32; [apply b2z_or|]. apply wp_lset.
  match goal with |- context [VI32 (b2z (?x || ?y))] => set (big := (x || y)%bool) end.
  match goal with |- context [lset (lset (lset ls6 ov2 ?x) hi ?y) ov2 ?z] => set (ls7 := lset (lset (lset ls6 ov2 x) hi y) ov2 z) end.
  assert (Z7 : length ls7 = length ls) by (unfold ls7; rewrite !lset_len; exact Z6).
  assert (U7 : nth_error ls7 lo = Some (VI64 Lf)) by (unfold ls7; rewrite !nth_lset_ne by auto; exact U6).
  assert (W7 : nth_error ls7 base = Some (VI64 pv)) by (unfold ls7; rewrite !nth_lset_ne by auto; exact W6).
  eapply wp_lget; [unfold ls7; rewrite nth_lset_ne by auto; apply lset_same; rewrite lset_len, Z6; exact Q6|]. rewrite <- ?app_assoc.
  apply index_ok; [exact Ht|apply Z.mod_pos_bound; lia|]. set (R0 := (m mod 2 ^ 64 * unit_size t) mod m64).
  cbn [app]. apply wp_ltee. apply wp_r64. eapply wp_lget; [rewrite nth_lset_ne by auto; unfold ls7; apply lset_same; rewrite !lset_len, Z6; exact Q5|].
  eapply wp_b32; [apply b2z_or|]. apply wp_lset.
  eapply wp_lget; [rewrite !nth_lset_ne by auto; exact W7|]. eapply wp_lget; [rewrite nth_lset_ne by auto; apply lset_same; rewrite Z7; exact Q6|].
  eapply wp_b64; [cbn [ibin]; reflexivity|]. apply wp_lset. set (Rt := (pv + R0) mod m64).
  match goal with |- context [lset (lset (lset ls7 hi ?x) ov2 ?y) hi ?z] => set (ls8 := lset (lset (lset ls7 hi x) ov2 y) hi z) end.
  assert (Z8 : length ls8 = length ls) by (unfold ls8; rewrite !lset_len; exact Z7).
  assert (U8 : nth_error ls8 lo = Some (VI64 Lf)) by (unfold ls8; rewrite !nth_lset_ne by auto; exact U7).
  assert (V8 : nth_error ls8 hi = Some (VI64 Rt)) by (unfold ls8; apply lset_same; rewrite !lset_len, Z7; exact Q6).
  eapply wp_lget; [exact V8|]. eapply wp_lget; [exact U8|]. apply wp_r64.
  eapply wp_lget; [unfold ls8; rewrite nth_lset_ne by auto; apply lset_same; rewrite !lset_len, Z7; exact Q5|]. eapply wp_b32; [apply b2z_or|]. apply wp_lset.
  apply wp_const. apply wp_const. eapply wp_lget; [apply lset_same; rewrite Z8; exact Q5|]. apply wp_select32.
  eapply wp_lget; [rewrite nth_lset_ne by auto; exact U8|]. apply wp_wrap. eapply wp_lget; [rewrite nth_lset_ne by auto; exact V8|]. eapply wp_lget; [rewrite nth_lset_ne by auto; exact U8|].
  eapply wp_b64; [cbn [ibin]; reflexivity|]. apply wp_wrap.
  match goal with |- context [lset ls8 ov2 ?x] => set (ls9 := lset ls8 ov2 x) end.
  assert (K9 : lkeep l ls6 ls9).
  { unfold ls9, ls8, ls7. assert (Nov : ~ live l ov2) by (intros Hlive; apply N5; exact (lext_live _ _ _ Y7 Hlive)). assert (Nhi : ~ live l hi) by (intros Hlive; apply N6; exact (lext_live _ _ _ Y8 Hlive)).
    do 6 (eapply lkeep_trans0; [|apply lkeep_lset; assumption]). apply lkeep_lset; assumption. }
  assert (HM9 : moved l ls st sp (fa + fi + fj) ls9 st3 sp3) by (eapply moved_more; [eapply moved_ls; [exact HM3|exact K9]|lia]).
  assert (Hmx : seq_max t <= max_value_size) by (clear - Ht Hok; destruct t; try discriminate; cbn [ty_ok seq_max] in *; lia). unfold max_value_size in Hmx.
  assert (HU : 1 <= unit_size t) by (clear - Ht Hok; destruct t; try discriminate; cbn [unit_size ty_ok] in *; try lia; destruct Hok as (_ & Hok); apply size_pos in Hok; lia).
  assert (Hlv2 : 0 <= seq_len v <= 1048576) by (clear - Hlv Hmx; lia).
  destruct (slice_flag (unit_size t) (seq_len v) pv n m (conj HU Hsm) V1 Hti Htj Hlv2 Hg big eq_refl) as (Hfl & Hex).
  unfold nv in *. unfold Lf, Rt, R0, ln in *. cbn [irel] in *. rewrite Hfl. clear Hfl.
  destruct ((n <=? m) && (m <=? seq_len v)) eqn:Hin; cbn [negb b2z Z.eqb].
  - apply andb_true_iff in Hin. destruct Hin as (I1 & I2). apply Z.leb_le in I1, I2. destruct (Hex I1 I2) as (-> & ->).
    pose proof (ctx_msize _ _ _ _ _ _ _ _ _ _ _ _ _ _ _ HC HM1) as Hmz1. pose proof (c_room _ _ _ _ _ _ _ _ _ _ _ HC) as Hrm.
    assert (C1 : pv + n * unit_size t < m32) by (clear - Hmz1 Hrm V3 I1 I2 HU HX0 Hti P P0 P1 HC; pose proof (c_lo _ _ _ _ _ _ _ _ _ _ _ HC); nia).
    assert (C2 : 0 <= (m - n) * unit_size t < m32) by (clear - I1 I2 HU V2 Hti; nia). assert (C3 : 0 <= pv + n * unit_size t) by (clear - HU Hti V1; nia).
    rewrite (Z.mod_small (pv + n * unit_size t)) by lia. replace (pv + m * unit_size t - (pv + n * unit_size t)) with ((m - n) * unit_size t) by lia.
    rewrite (Z.mod_small ((m - n) * unit_size t) m64) by lia. rewrite (Z.mod_small ((m - n) * unit_size t)) by lia.
    apply (HW _ _ _ st3 sp3 [VI32 1; VI32 (pv + n * unit_size t); VI32 ((m - n) * unit_size t)] eq_refl). constructor; [exact HM9| | |reflexivity].
    + cbn [rep]. eexists. split; [reflexivity|]. apply slice_rep; [exact Ht|exact HR3|lia|exact I2|exact C1].
    + cbn [has_type]. apply slice_type; auto.
  - match goal with |- context [VI32 ?x :: VI32 ?y :: VI32 0 :: k] => apply (HW _ _ _ st3 sp3 [VI32 0; VI32 y; VI32 x] eq_refl) end. constructor; [exact HM9| |exact I|reflexivity].
    cbn [rep]. eexists. split; [reflexivity|]. destruct t; try discriminate; cbn [clar2wasm_ty]; (constructor; [|constructor; [|constructor]]); cbn; apply Z.mod_pos_bound; lia.
Qed.
End Slice.
