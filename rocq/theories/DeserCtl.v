(** * The emitted deserialization code for optionals, responses and lists (proof support) *)
From Coq Require Import ZArith String Ascii List Bool Lia Sorted.
Import ListNotations.
From Verif Require Import Wasm Std StdEnv WasmLogic WasmTac Spec Mem MemFacts Bytes SpecBytes SpecUtf8 Clar Rep RepFacts Emit CallProofs EmitFacts EmitProofs
  ReadProofs Equal EqualProofs Utf8Proofs Utf8Dec ConvProofs NameProofs NameSearch BeProofs SpecSer SpecSkip SkipProofs SerProofs PropSer SpecDeser Deser DeserProofs DeserSeq.
Open Scope string_scope.
Open Scope list_scope.
Open Scope Z_scope.

Section Code.
Variable tab : list string -> Z.
Context {HS : Type} (E : env HS) (HE : has_std E).
Notation wp := (wp E).
Notation deser_right := (deser_right tab E).

Lemma head_tag m a bs b r : holds m a bs -> bs = b :: r -> rd m a = b.
Proof. intros H ->. apply holds_cons in H. tauto. Qed.
(** a tagged value *)
Lemma tagged (C : value -> value) tg T t m a e o : (forall v bs, readable T v bs -> rd m a = tg -> holds m a bs -> exists v' b, v = C v' /\ bs = tg :: b /\ readable t v' b) ->
  (exact_type T -> exact_type t) -> (forall bs, miskeyed T bs -> holds m a bs -> exists b, bs = tg :: b /\ miskeyed t b) -> rd m a = tg -> want T m a e o ->
  exists o', want t m (a + 1) e o' /\ (o' = None -> o = None) /\ forall v b, agrees o' v b -> agrees o (C v) (tg :: b).
Proof.
  intros HC HX HM Ht HW. destruct o as [[v bs]|].
  2:{ exists None. split; [|split; [auto|]; intros; exact I]. destruct HW as [HW|(bs & M1 & M2 & M3)]; [left; apply HX; exact HW|right].
      destruct (HM _ M1 M2) as (b & -> & M4). apply holds_cons in M2. rewrite zlen_cons in M3. exists b. split; [exact M4|]. split; [tauto|lia]. }
  destruct HW as (W1 & W2 & W3). destruct (HC _ _ W1 Ht W2) as (v' & b & -> & -> & W4). apply holds_cons in W2. rewrite zlen_cons in W3.
  exists (Some (v', b)). split; [split; [exact W4|]; split; [tauto|lia]|]. split; [congruence|]. intros v b' (-> & ->). split; reflexivity.
Qed.

(** pushing the words of an optional's none *)
Lemma zeros_len t : length (map zero_of (clar2wasm_ty t)) = length (clar2wasm_ty t).
Proof. apply map_length. Qed.

Lemma area_sub m a e r n a' : area m a e r n -> a <= a' <= e -> area m a' e r n.
Proof. intros (A1 & A2 & A3 & A4 & A5 & A6 & A7 & A8 & A9) H. unfold area. lia. Qed.
Lemma area_sub2 m a e r n a' r' n' : area m a e r n -> a <= a' <= e -> r <= r' -> 0 <= n' -> r' + n' <= r + n -> area m a' e r' n'.
Proof. intros (A1 & A2 & A3 & A4 & A5 & A6 & A7 & A8 & A9) H. unfold area. lia. Qed.

Lemma deser_opt_ok t : deser_right t -> deser_right (TOpt t).
Proof.
  intros IH Hok l ol el rl c l' H Hw Ho He Hr D1 D2 D3. cbn [deserialize_from_memory] in H. rewrite add_one in H.
  destruct (deserialize_from_memory tab t ol el rl (more l [T32])) as [ci l2] eqn:E2. destruct (save_to_locals t l2) as [[is cs] l3] eqn:E3.
  assert (Hc := f_equal fst H). assert (Hl' := f_equal snd H). cbn [fst snd] in Hc, Hl'. subst c l'. clear H.
  set (l1 := more l [T32]) in *. assert (L1 : lext l l1) by (apply more_ext; auto).
  specialize (IH Hok _ _ _ _ _ _ E2 (lext_wf _ _ L1) (lext_live _ _ _ L1 Ho) (lext_live _ _ _ L1 He) (lext_live _ _ _ L1 Hr) D1 D2 D3).
  destruct (deser_save _ _ _ _ _ _ _ _ _ _ _ _ IH E3 (lext_live _ _ _ L1 Ho) (lext_live _ _ _ L1 Hr)) as (X1 & X2 & X3 & X4).
  assert (Hl1 : llen l1 = S (llen l)) by (unfold l1; rewrite llen_more; cbn; lia). pose proof (lext_len _ _ X1) as Hl3.
  split; [eapply lext_trans; eauto|]. intros js ls k st a e r K o Q Go Ge Gr Hn HA HT HK HW S F. assert (HA' := HA). destruct HA' as (A1 & A2 & A3 & A4 & A5 & A6 & A7 & A8 & A9).
  cbn [tables] in HT. change (room (TOpt t)) with (room t) in *. apply live_lt in Ho, He, Hr.
  assert (FAIL : forall ls' m' x, o = None -> lkeep (hide [ol; rl] l) ls ls' -> nth_error ls' ol = Some (VI32 x) -> only_changes (smem st) m' r (room t) ->
     wp js (mkcfg ls' (firstn (2 + length (clar2wasm_ty t)) (rev (map zero_of (clar2wasm_ty t)) ++ [VI32 0; VI32 0]) ++ k) (with_mem st m')) Q).
  { intros ls' m' x Hno HKp HO HM. rewrite firstn_all2 by (rewrite app_length, rev_length, map_length; cbn [length]; lia).
    specialize (F ls' m' (VI32 0 :: map zero_of (clar2wasm_ty t))). rewrite <- app_assoc. cbn [rev app] in F |- *. rewrite <- app_assoc in F. cbn [app] in F. apply F. split; [exact Hno|]. split; [exact HKp|]. split; [eauto|]. split; [exact HM|].
    constructor; [cbn; lia|apply zeros_typed]. }
  assert (PN : forall ls' k' st' is' QQ, wp is' (mkcfg ls' (rev (map zero_of (clar2wasm_ty t)) ++ VI32 0 :: VI32 0 :: k') st') QQ -> wp (([Const (VI32 0); Const (VI32 0)] ++ placeholders t) ++ is') (mkcfg ls' k' st') QQ).
  { intros ls' k' st' is' QQ HQ. cbn [app]. apply wp_const. apply wp_const. apply wp_placeholders. exact HQ. }
  assert (NEED : o = None \/ (a + 1 <= e /\ (rd (smem st) a = 9 \/ rd (smem st) a = 10))).
  { destruct o as [[v bs]|]; [right|left; reflexivity]. destruct HW as (W1 & W2 & W3). destruct v; cbn [readable] in W1; try contradiction.
    - subst bs. change (zlen [9]) with 1 in W3. split; [lia|left]. eapply head_tag; [exact W2|reflexivity].
    - destruct W1 as (b & -> & _). rewrite zlen_cons in W3. pose proof (zlen_nonneg b). split; [lia|right]. eapply head_tag; [exact W2|reflexivity]. }
  cbn [app]. apply wp_block. wst. eapply wp_lget; [exact Go|]. eapply wp_lget; [exact Ge|]. apply wp_r32. cbn [irel]. apply wp_if_bool; intros Hc; cbn [firstn skipn].
  { apply PN. apply wp_br. wst. rewrite <- (with_mem_same st). eapply FAIL; [|apply lkeep_refl|exact Go|apply only_refl]. destruct NEED as [Hno|(N & _)]; [exact Hno|lia]. }
  apply wp_nil. wst. eapply wp_lget; [exact Go|]. apply wp_byte_at; [lia|lia|]. rewrite Z.add_0_r. apply wp_ltee. apply wp_const. apply wp_r32. cbn [irel]. set (ls1 := lset ls (llen l) _).
  assert (K1 : lkeep (hide [ol; rl] l) ls ls1) by (apply keep_new; lia). assert (G1 : nth_error ls1 ol = Some (VI32 a)) by (unfold ls1; lk).
  apply wp_if_bool; intros Hc2; cbn [firstn skipn].
  { apply Z.eqb_eq in Hc2. cbn [app]. apply wp_const. apply wp_const. rewrite <- ?app_assoc. apply wp_placeholders. eapply wp_bump; [exact G1|lia|]. apply wp_br. wst.
    rewrite firstn_all2 by (rewrite app_length, rev_length, map_length; cbn [length]; lia). rewrite <- app_assoc. cbn [app].
    specialize (S (lset ls1 ol (VI32 (a + 1))) (smem st) CNone [9] (VI32 0 :: map zero_of (clar2wasm_ty t)) r). rewrite with_mem_same in S. cbn [rev] in S. rewrite <- app_assoc in S. apply S. clear S.
    assert (HH : holds (smem st) a [9]). { rewrite <- Hc2. exact (holds_intro (smem st) a 1 ltac:(lia) ltac:(lia) ltac:(lia)). }
    unfold succeeded. change (zlen [9]) with 1. split; [apply keep_new2; auto|]. split; [unfold ls1; lk|]. split; [unfold ls1; lk|]. split; [lia|]. split; [apply only_refl|]. split; [reflexivity|]. split; [exact HH|]. split; [lia|].
    split. { destruct o as [[v bs]|]; [|exact I]. destruct HW as (W1 & W2 & W3). destruct v; cbn [readable] in W1; try contradiction; [subst; split; reflexivity|]. destruct W1 as (b & -> & _). pose proof (head_tag _ _ _ _ _ W2 eq_refl). lia. }
    cbn [rep]. eexists. split; [reflexivity|apply zeros_typed]. }
  apply Z.eqb_neq in Hc2. apply wp_nil. wst. eapply wp_lget; [unfold ls1; lk|]. apply wp_const. apply wp_r32. cbn [irel]. apply wp_if_bool; intros Hc3; cbn [firstn skipn].
  2:{ apply Z.eqb_neq in Hc3. match goal with |- WasmLogic.wp _ _ (mkcfg ?x ?y ?z) ?q => change (wp ([Const (VI32 0); Const (VI32 0)] ++ placeholders t) (mkcfg x y z) q) end. rewrite <- (app_nil_r ([Const (VI32 0); Const (VI32 0)] ++ placeholders t)). apply PN. apply wp_nil. wst.
    rewrite app_nil_r. apply wp_nil. wst. rewrite <- (with_mem_same st). rewrite <- (firstn_all2 (n := 2 + length (clar2wasm_ty t)) (rev (map zero_of (clar2wasm_ty t)) ++ [VI32 0; VI32 0])) by (rewrite app_length, rev_length, map_length; cbn [length]; lia). eapply FAIL; [|exact K1|exact G1|apply only_refl]. destruct NEED as [Hno|(_ & N)]; [exact Hno|lia]. }
  apply Z.eqb_eq in Hc3.
  destruct (tagged CSome 10 (TOpt t) t (smem st) a e o) as (o' & O1 & O2 & O3); [|auto|intros bs (b & -> & HM) _; eauto|exact Hc3|exact HW|].
  { intros v bs R1 R2 R3. destruct v; cbn [readable] in R1; try contradiction; [subst; pose proof (head_tag _ _ _ _ _ R3 eq_refl); lia|]. destruct R1 as (b & -> & R1). eauto. }
  rewrite <- ?app_assoc. eapply wp_bump; [exact G1|lia|]. set (ls2 := lset ls1 ol _). assert (K2 : lkeep (hide [ol; rl] l) ls ls2) by (apply keep_new2; auto).
  cbn [app]. eapply X4 with (a := a + 1) (e := e) (r := r) (K := K) (o := o'); [unfold ls2, ls1; lk|unfold ls2, ls1; lk|unfold ls2, ls1; lk|unfold ls2, ls1; rewrite !lset_len; lia|eapply area_sub; [exact HA|lia]|exact HT|exact HK|exact O1| |].
  - intros ls3 m3 v bs ws r3 (S1 & S2 & S3 & S4 & S5 & S6 & S7 & S8 & S9 & S10) V. apply wp_const. apply wp_const. rewrite <- (app_nil_r (push_locals is)). eapply wp_lgets; [exact V|]. apply wp_nil. wst.
    pose proof (rep_len _ _ _ _ _ S10) as HL. rewrite app_nil_r. apply wp_nil. wst.
    rewrite <- app_assoc. cbn [app]. specialize (S ls3 m3 (CSome v) (10 :: bs) (VI32 1 :: ws) r3). cbn [rev] in S. rewrite <- app_assoc in S. apply S. clear S. unfold succeeded. rewrite zlen_cons.
    split; [eapply lkeep_trans0; [exact K2|]; eapply lkeep_hide2; [exact L1| |exact S1]; auto|]. split; [rewrite S2; do 2 f_equal; lia|]. split; [exact S3|]. split; [exact S4|]. split; [exact S5|].
    split; [cbn [readable]; eauto|]. split; [apply holds_push; [exact A1|exact Hc3|exact S7]|]. split; [lia|]. split; [apply O3; exact S9|].
    cbn [rep]. eexists. split; [reflexivity|]. eapply rep_weaken; [|exact S10]. cbv beta. intros x Hx. lia.
  - intros ls3 m3 ws (S1 & S2 & (x & S3) & S4 & S5). apply PN. apply wp_br. wst. eapply FAIL; [auto| |exact S3|exact S4]. eapply lkeep_trans0; [exact K2|]; eapply lkeep_hide2; [exact L1| |exact S2]; auto.
Qed.
Lemma deser_resp_ok t te : deser_right t -> deser_right te -> deser_right (TResp t te).
Proof.
  intros IH1 IH2 (Hok1 & Hok2) l ol el rl c l' H Hw Ho He Hr D1 D2 D3. cbn [deserialize_from_memory] in H. rewrite add_one in H.
  destruct (deserialize_from_memory tab t ol el rl (more l [T32])) as [co l2] eqn:E2. destruct (save_to_locals t l2) as [[os cso] l3] eqn:E3.
  destruct (deserialize_from_memory tab te ol el rl l3) as [ce l4] eqn:E4. destruct (save_to_locals te l4) as [[es cse] l5] eqn:E5.
  assert (Hc := f_equal fst H). assert (Hl' := f_equal snd H). cbn [fst snd] in Hc, Hl'. subst c l'. clear H.
  set (l1 := more l [T32]) in *. assert (L1 : lext l l1) by (apply more_ext; auto).
  specialize (IH1 Hok1 _ _ _ _ _ _ E2 (lext_wf _ _ L1) (lext_live _ _ _ L1 Ho) (lext_live _ _ _ L1 He) (lext_live _ _ _ L1 Hr) D1 D2 D3).
  destruct (deser_save _ _ _ _ _ _ _ _ _ _ _ _ IH1 E3 (lext_live _ _ _ L1 Ho) (lext_live _ _ _ L1 Hr)) as (X1 & X2 & X3 & X4).
  assert (L3 : lext l l3) by (eapply lext_trans; eauto).
  specialize (IH2 Hok2 _ _ _ _ _ _ E4 (lext_wf _ _ L3) (lext_live _ _ _ L3 Ho) (lext_live _ _ _ L3 He) (lext_live _ _ _ L3 Hr) D1 D2 D3).
  destruct (deser_save _ _ _ _ _ _ _ _ _ _ _ _ IH2 E5 (lext_live _ _ _ L3 Ho) (lext_live _ _ _ L3 Hr)) as (Y1 & Y2 & Y3 & Y4).
  assert (Hl1 : llen l1 = S (llen l)) by (unfold l1; rewrite llen_more; cbn; lia). pose proof (lext_len _ _ X1) as Hl3. pose proof (lext_len _ _ Y1) as Hl5.
  split; [eapply lext_trans; eauto|]. intros js ls k st a e r K o Q Go Ge Gr Hn HA HT HK HW S F. assert (HA' := HA). destruct HA' as (A1 & A2 & A3 & A4 & A5 & A6 & A7 & A8 & A9).
  cbn [tables] in HT. destruct HT as (HT1 & HT2). change (room (TResp t te)) with (room t + room te) in *. pose proof (room_nonneg _ Hok1) as RN1. pose proof (room_nonneg _ Hok2) as RN2. apply live_lt in Ho, He, Hr.
  set (N1 := length (clar2wasm_ty t)) in *. set (N2 := length (clar2wasm_ty te)) in *. set (Z1 := map zero_of (clar2wasm_ty t)) in *. set (Z2 := map zero_of (clar2wasm_ty te)) in *.
  assert (HZ1 : length Z1 = N1) by apply map_length. assert (HZ2 : length Z2 = N2) by apply map_length.
  assert (FAIL : forall ls' m' x, o = None -> lkeep (hide [ol; rl] l) ls ls' -> nth_error ls' ol = Some (VI32 x) -> only_changes (smem st) m' r (room t + room te) ->
     wp js (mkcfg ls' (firstn (2 + N1 + N2) (rev Z2 ++ rev Z1 ++ [VI32 0; VI32 0]) ++ k) (with_mem st m')) Q).
  { intros ls' m' x Hno HKp HO HM. rewrite firstn_all2 by (rewrite !app_length, !rev_length; cbn [length]; lia).
    specialize (F ls' m' (VI32 0 :: Z1 ++ Z2)). cbn [rev] in F. rewrite rev_app_distr, <- !app_assoc in F. rewrite <- !app_assoc. apply F. split; [exact Hno|]. split; [exact HKp|]. split; [eauto|]. split; [exact HM|].
    constructor; [cbn; lia|]. apply Forall2_app; apply zeros_typed. }
  assert (PN : forall ls' k' st' is' QQ, wp is' (mkcfg ls' (rev Z2 ++ rev Z1 ++ VI32 0 :: VI32 0 :: k') st') QQ -> wp (Const (VI32 0) :: Const (VI32 0) :: placeholders t ++ placeholders te ++ is') (mkcfg ls' k' st') QQ).
  { intros ls' k' st' is' QQ HQ. apply wp_const. apply wp_const. apply wp_placeholders. apply wp_placeholders. exact HQ. }
  assert (NEED : o = None \/ (a + 1 <= e /\ (rd (smem st) a = 7 \/ rd (smem st) a = 8))).
  { destruct o as [[v bs]|]; [right|left; reflexivity]. destruct HW as (W1 & W2 & W3). destruct v; cbn [readable] in W1; try contradiction;
      destruct W1 as (b & -> & _); rewrite zlen_cons in W3; pose proof (zlen_nonneg b); pose proof (head_tag _ _ _ _ _ W2 eq_refl); split; auto; lia. }
  cbn [app]. apply wp_block. wst. eapply wp_lget; [exact Go|]. eapply wp_lget; [exact Ge|]. apply wp_r32. cbn [irel]. apply wp_if_bool; intros Hc; cbn [firstn skipn].
  { rewrite <- ?app_assoc; cbn [app]; rewrite <- ?app_assoc; apply PN. apply wp_br. wst. rewrite <- (with_mem_same st). eapply FAIL; [|apply lkeep_refl|exact Go|apply only_refl]. destruct NEED as [Hno|(N & _)]; [exact Hno|lia]. }
  apply wp_nil. wst. eapply wp_lget; [exact Go|]. apply wp_byte_at; [lia|lia|]. rewrite Z.add_0_r. apply wp_ltee. apply wp_const. apply wp_r32. cbn [irel]. set (ls1 := lset ls (llen l) _).
  assert (K1 : lkeep (hide [ol; rl] l) ls ls1) by (apply keep_new; lia). assert (G1 : nth_error ls1 ol = Some (VI32 a)) by (unfold ls1; lk).
  apply wp_if_bool; intros Hc2; cbn [firstn skipn].
  - apply Z.eqb_eq in Hc2.
    destruct (tagged COk 7 (TResp t te) t (smem st) a e o) as (o' & O1 & O2 & O3); [|intros HX; apply HX|intros bs (b & [(-> & HM)|(-> & HM)]) HH; [eauto|pose proof (head_tag _ _ _ _ _ HH eq_refl); lia]|exact Hc2|exact HW|].
    { intros v bs R1 R2 R3. destruct v; cbn [readable] in R1; try contradiction; destruct R1 as (b & -> & R1); [eauto|]. pose proof (head_tag _ _ _ _ _ R3 eq_refl); lia. }
    rewrite <- ?app_assoc. eapply wp_bump; [exact G1|lia|]. set (ls2 := lset ls1 ol _). assert (K2 : lkeep (hide [ol; rl] l) ls ls2) by (apply keep_new2; auto).
    cbn [app]. eapply X4 with (a := a + 1) (e := e) (r := r) (K := K) (o := o');
      [unfold ls2, ls1; lk|unfold ls2, ls1; lk|unfold ls2, ls1; lk|unfold ls2, ls1; rewrite !lset_len; lia|eapply area_sub2; [exact HA|lia|lia|lia|lia]|exact HT1|eapply off_sub; [exact HK|lia|lia]|exact O1| |].
    + intros ls3 m3 v bs ws r3 (S1 & S2 & S3 & S4 & S5 & S6 & S7 & S8 & S9 & S10) V. apply wp_const. apply wp_const. eapply wp_lgets; [exact V|]. rewrite <- (app_nil_r (placeholders te)). apply wp_placeholders. apply wp_nil. wst.
      rewrite app_nil_r. apply wp_nil. wst. rewrite <- !app_assoc. cbn [app].
      specialize (S ls3 m3 (COk v) (7 :: bs) (VI32 1 :: ws ++ Z2) r3). cbn [rev] in S. rewrite rev_app_distr, <- !app_assoc in S. apply S. clear S. unfold succeeded. rewrite zlen_cons.
      split; [eapply lkeep_trans0; [exact K2|]; eapply lkeep_hide2; [exact L1| |exact S1]; auto|]. split; [rewrite S2; do 2 f_equal; lia|]. split; [exact S3|]. split; [lia|]. split; [exact S5|].
      split; [cbn [readable]; eauto|]. split; [apply holds_push; [exact A1|exact Hc2|exact S7]|]. split; [lia|]. split; [apply O3; exact S9|].
      cbn [rep]. exists ws, Z2. split; [reflexivity|]. split; [|apply zeros_typed]. eapply rep_weaken; [|exact S10]. cbv beta. intros x Hx. lia.
    + intros ls3 m3 ws (S1 & S2 & (x & S3) & S4 & S5). rewrite <- ?app_assoc; cbn [app]; rewrite <- ?app_assoc; apply PN. apply wp_br. wst. eapply FAIL; [auto| |exact S3|eapply only_weaken; [exact S4|lia|lia]]. eapply lkeep_trans0; [exact K2|]; eapply lkeep_hide2; [exact L1| |exact S2]; auto.
  - apply Z.eqb_neq in Hc2. cbn [app]. eapply wp_lget; [unfold ls1; lk|]. apply wp_const. apply wp_r32. cbn [irel]. apply wp_if_bool; intros Hc3; cbn [firstn skipn].
    { rewrite <- ?app_assoc; cbn [app]; rewrite <- ?app_assoc; apply PN. apply wp_br. wst. rewrite <- (with_mem_same st). eapply FAIL; [|exact K1|exact G1|apply only_refl]. destruct NEED as [Hno|(_ & N)]; [exact Hno|]. apply negb_true_iff, Z.eqb_neq in Hc3. lia. }
    apply negb_false_iff, Z.eqb_eq in Hc3. apply wp_nil. wst.
    destruct (tagged CErr 8 (TResp t te) te (smem st) a e o) as (o' & O1 & O2 & O3); [|intros HX; apply HX|intros bs (b & [(-> & HM)|(-> & HM)]) HH; [pose proof (head_tag _ _ _ _ _ HH eq_refl); lia|eauto]|exact Hc3|exact HW|].
    { intros v bs R1 R2 R3. destruct v; cbn [readable] in R1; try contradiction; destruct R1 as (b & -> & R1); [|eauto]. pose proof (head_tag _ _ _ _ _ R3 eq_refl); lia. }
    rewrite <- ?app_assoc. eapply wp_bump; [exact G1|lia|]. set (ls2 := lset ls1 ol _). assert (K2 : lkeep (hide [ol; rl] l) ls ls2) by (apply keep_new2; auto).
    cbn [app]. eapply Y4 with (a := a + 1) (e := e) (r := r) (K := K) (o := o');
      [unfold ls2, ls1; lk|unfold ls2, ls1; lk|unfold ls2, ls1; lk|unfold ls2, ls1; rewrite !lset_len; lia|eapply area_sub2; [exact HA|lia|lia|lia|lia]|exact HT2|eapply off_sub; [exact HK|lia|lia]|exact O1| |].
    + intros ls3 m3 v bs ws r3 (S1 & S2 & S3 & S4 & S5 & S6 & S7 & S8 & S9 & S10) V. apply wp_const. apply wp_const. apply wp_placeholders. rewrite <- (app_nil_r (push_locals es)). eapply wp_lgets; [exact V|]. apply wp_nil. wst.
      rewrite app_nil_r. apply wp_nil. wst. rewrite <- !app_assoc. cbn [app].
      specialize (S ls3 m3 (CErr v) (8 :: bs) (VI32 0 :: Z1 ++ ws) r3). cbn [rev] in S. rewrite rev_app_distr, <- !app_assoc in S. apply S. clear S. unfold succeeded. rewrite zlen_cons.
      split; [eapply lkeep_trans0; [exact K2|]; eapply lkeep_hide2; [exact L3| |exact S1]; auto|]. split; [rewrite S2; do 2 f_equal; lia|]. split; [exact S3|]. split; [lia|]. split; [exact S5|].
      split; [cbn [readable]; eauto|]. split; [apply holds_push; [exact A1|exact Hc3|exact S7]|]. split; [lia|]. split; [apply O3; exact S9|].
      cbn [rep]. exists Z1, ws. split; [reflexivity|]. split; [apply zeros_typed|]. eapply rep_weaken; [|exact S10]. cbv beta. intros x Hx. lia.
    + intros ls3 m3 ws (S1 & S2 & (x & S3) & S4 & S5). rewrite <- ?app_assoc; cbn [app]; rewrite <- ?app_assoc; apply PN. apply wp_br. wst. eapply FAIL; [auto| |exact S3|eapply only_weaken; [exact S4|lia|lia]]. eapply lkeep_trans0; [exact K2|]; eapply lkeep_hide2; [exact L3| |exact S2]; auto.
Qed.
End Code.
