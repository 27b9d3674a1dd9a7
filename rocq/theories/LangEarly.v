(** * Correctness of emitted expression code: early returns, panics, equality (proof support) *)
From Coq Require Import ZArith String List Bool Lia.
Import ListNotations.
From Verif Require Import Wasm Std StdEnv WasmLogic WasmTac Mem MemFacts Spec ArithProofs Clar Rep RepFacts Emit EmitFacts EmitProofs Equal EqualProofs
  CallProofs Ast SpecLang Lang Typing LangFacts LangBase LangCtl.
Open Scope string_scope.
Open Scope list_scope.
Open Scope Z_scope.

Lemma gget_set (g : globals) n v w : gget g n = Some w -> gget (gset g n v) n = Some v.
Proof.
  induction g as [|[k u] g IH]; cbn [gget gset]; [discriminate|]. destruct (String.eqb k n) eqn:He; cbn [gget]; rewrite He; auto.
Qed.
Lemma gget_set_other (g : globals) n k v : k <> n -> gget (gset g n v) k = gget g k.
Proof.
  intros Hn. induction g as [|[j u] g IH]; cbn [gget gset]; [reflexivity|]. destruct (String.eqb j n) eqn:He; cbn [gget].
  - apply String.eqb_eq in He. subst. destruct (String.eqb n k) eqn:Hk; [apply String.eqb_eq in Hk; congruence|reflexivity].
  - destruct (String.eqb j k); [reflexivity|exact IH].
Qed.

Section Early.
Context {HS : Type} {CH : chain HS} (E : env HS) (HE : has_std E) (rt : ty) (L : list (ty * value * Z)) (X : Z).
Notation wp := (wp E).
Notation impl := (impl E rt L X).
Notation ctx := (ctx L X).
Notation impl_next := (impl_next E rt L X).
Notation impl_last := (impl_last E rt L X).
Notation impl_block := (impl_block E rt L X).
Notation impl_fr := (impl_fr E rt L X).
Notation impl_ext := (impl_ext E rt L X).
Ltac fr_of H := let P := fresh "P" in pose proof (impl_fr _ _ _ _ _ H) as P.
Ltac ext_of H E X := let W := fresh in
  match type of E with ?c ?d ?B ?l = _ =>
    assert (W : lwf l) by (assumption || (eapply lext_wf; eassumption));
    pose proof (impl_ext _ _ _ _ _ _ _ _ _ _ H E W) as X; clear W end.
Ltac lenl := repeat match goal with H : lext _ _ |- _ => apply lext_len in H | H : moved _ _ _ _ _ _ _ _ |- _ => apply m_ls, lkeep_len in H end; lia.

(** ** Opening an optional or a response *)
Definition opened (m : mem) (P : Z -> Prop) (t : ty) (x : value) (tag : Z) (w1 w2 : list val) : Prop :=
  match t, x with
  | TOpt _, CNone => tag = 0
  | TOpt ti, CSome y => tag = 1 /\ rep m P ti y w1 /\ has_type ti y
  | TResp to _, COk y => tag = 1 /\ rep m P to y w1 /\ has_type to y
  | TResp _ te, CErr y => tag = 0 /\ rep m P te y w2 /\ has_type te y
  | _, _ => False
  end.

Lemma short_new_ok t l os es v c l' : short_new t l = (os, es, v, c, l') -> lwf l -> is_opt t || is_resp t = true ->
  lext l l' /\ Forall (live l') os /\ Forall (live l') es /\ live l' v /\
  forall js ls k (st : store HS) m P x ws Q, rep m P t x ws -> has_type t x -> (llen l' <= length ls)%nat ->
    (forall ls' w1 w2 tag, lkeep l ls ls' -> lvals ls' os w1 -> lvals ls' es w2 -> nth_error ls' v = Some (VI32 tag) ->
       opened m P t x tag w1 w2 -> wp js (mkcfg ls' k st) Q) ->
    wp (c ++ js) (mkcfg ls (rev ws ++ k) st) Q.
Proof.
  intros H Hw Ht. destruct t; try discriminate; cbn [short_new] in H.
  - destruct (save_to_locals t l) as [[is cs] l1] eqn:Es. destruct (add_local T32 l1) as [v0 l2] eqn:Ev. injection H as <- <- <- <- <-.
    destruct (save_ok E _ _ _ _ _ Es Hw) as (Xs & Hlv & Hln & Hrun). destruct (add_ok _ _ _ _ Ev (lext_wf _ _ Xs)) as (Xv & Lv & Nv).
    split; [eapply lext_trans; eauto|]. split; [eapply Forall_impl; [|exact Hlv]; intros i; apply lext_live; auto|]. split; [constructor|]. split; [exact Lv|].
    intros js ls k st m P x ws Q Hr Hty HN HW.
    assert (HT : forall tag w1, length w1 = length (clar2wasm_ty t) -> opened m P (TOpt t) x tag w1 [] ->
      wp ((cs ++ [LSet v0]) ++ js) (mkcfg ls (rev (VI32 tag :: w1) ++ k) st) Q).
    { intros tag w1 HL1 Ho. cbn [rev]. rewrite <- !app_assoc. eapply Hrun; [exact HL1|apply lext_len in Xv; lia|]. intros ls1 HK HV.
      cbn [app]. apply wp_lset. eapply (HW _ w1 [] tag); [| |constructor| |exact Ho].
      - eapply lkeep_trans; [exact Xs|exact HK|apply lkeep_lset; exact Nv].
      - eapply lvals_keep; [apply lkeep_lset; exact Nv|exact Hlv|exact HV].
      - apply lset_same. rewrite (lkeep_len _ _ _ HK). destruct Lv. lia. }
    destruct (rep_opt _ _ _ _ _ Hr) as [(-> & w1 & -> & Hw1)|(y & -> & w1 & -> & Hw1)].
    + apply HT; [symmetry; eapply F2_len; eauto|reflexivity].
    + apply HT; [eapply rep_len; eauto|]. cbn. auto.
  - destruct (save_to_locals t2 l) as [[es1 ce] l1] eqn:Ee. destruct (save_to_locals t1 l1) as [[os1 co] l2] eqn:Eo.
    destruct (add_local T32 l2) as [v0 l3] eqn:Ev. injection H as <- <- <- <- <-.
    destruct (save_ok E _ _ _ _ _ Ee Hw) as (Xs & Hlv & Hln & Hrun). destruct (save_ok E _ _ _ _ _ Eo (lext_wf _ _ Xs)) as (Xs2 & Hlv2 & Hln2 & Hrun2).
    destruct (add_ok _ _ _ _ Ev (lext_wf _ _ Xs2)) as (Xv & Lv & Nv). assert (X2 : lext l l2) by (eapply lext_trans; eauto).
    split; [eapply lext_trans; eauto|]. split; [eapply Forall_impl; [|exact Hlv2]; intros i; apply lext_live; auto|].
    split; [eapply Forall_impl; [|exact Hlv]; intros i Hi; eapply lext_live; [exact Xv|eapply lext_live; [exact Xs2|exact Hi]]|]. split; [exact Lv|].
    intros js ls k st m P x ws Q Hr Hty HN HW.
    assert (HT : forall tag w1 w2, length w1 = length (clar2wasm_ty t1) -> length w2 = length (clar2wasm_ty t2) -> opened m P (TResp t1 t2) x tag w1 w2 ->
      wp ((ce ++ co ++ [LSet v0]) ++ js) (mkcfg ls (rev (VI32 tag :: w1 ++ w2) ++ k) st) Q).
    { intros tag w1 w2 HL1 HL2 Ho. cbn [rev]. rewrite rev_app_distr, <- !app_assoc. eapply Hrun; [exact HL2|lenl|]. intros ls1 HK HV.
      eapply Hrun2; [exact HL1|rewrite (lkeep_len _ _ _ HK); lenl|]. intros ls2 HK2 HV2.
      cbn [app]. apply wp_lset. eapply (HW _ w1 w2 tag); [| | | |exact Ho].
      - eapply lkeep_trans; [exact X2| |apply lkeep_lset; exact Nv]. exact (lkeep_trans _ _ _ _ _ Xs HK HK2).
      - eapply lvals_keep; [apply lkeep_lset; exact Nv|exact Hlv2|exact HV2].
      - eapply lvals_keep; [apply lkeep_lset; exact Nv| |]; [eapply Forall_impl; [|exact Hlv]; intros i; exact (lext_live _ _ i Xs2)|].
        eapply lvals_keep; [exact HK2|exact Hlv|exact HV].
      - apply lset_same. rewrite (lkeep_len _ _ _ HK2), (lkeep_len _ _ _ HK). destruct Lv. lia. }
    destruct (rep_resp _ _ _ _ _ _ Hr) as [(y & -> & w1 & w2 & -> & Hw1 & Hw2)|(y & -> & w1 & w2 & -> & Hw1 & Hw2)].
    + apply HT; [eapply rep_len; eauto|symmetry; eapply F2_len; eauto|]. cbn. auto.
    + apply HT; [symmetry; eapply F2_len; eauto|eapply rep_len; eauto|]. cbn. auto.
Qed.

(** the conditional return: the words of the returned value, then the condition *)
Lemma short_return_ok push cond d js ls ws k (st : store HS) Q (b : bool) :
  (forall js' k', wp js' (mkcfg ls (rev ws ++ k') st) Q -> wp (push ++ js') (mkcfg ls k' st) Q) ->
  (forall js' k', wp js' (mkcfg ls (VI32 (b2z b) :: k') st) Q -> wp (cond ++ js') (mkcfg ls k' st) Q) ->
  length ws = length (clar2wasm_ty rt) ->
  (b = true -> Q (OBr d (mkcfg ls (rev ws ++ k) st))) ->
  (b = false -> wp js (mkcfg ls k st) Q) ->
  wp (short_return rt push cond d ++ js) (mkcfg ls k st) Q.
Proof.
  intros HP HC HL H1 H2. unfold short_return. rewrite <- !app_assoc. apply HP. apply HC. cbn [app]. apply wp_brif_bool; [|exact H1].
  intros Hb. apply wp_drops; auto.
Qed.

(** ** [unwrap!], [unwrap-err!] *)
Lemma unwrap_gen_ok (err : bool) G t fa fb a b ma mb (f : value -> value -> M HS value) to :
  impl G t fa a ma -> impl G rt fb b mb -> is_opt t || is_resp t = true ->
  (forall m P v w h rs tag w1 w2, opened m P t v tag w1 w2 -> f v w h = Some rs ->
     (tag = (if err then 0 else 1) /\ exists x, rs = Done x h /\ rep m P to x (if err then w2 else w1) /\ has_type to x) \/
     (tag = (if err then 1 else 0) /\ rs = Early w h)) ->
  impl G to (fa + fb)
    (fun d B l =>
       let '(ca, l) := a d B l in
       let '(os, es, v, cn, l) := short_new t l in
       let '(cb, l) := b d B l in
       let '(ts, ct, l) := save_to_locals rt l in
       (ca ++ cn ++ cb ++ ct ++ short_return rt (push_locals ts) (if err then [LGet v] else [LGet v; Eqz32]) d ++ push_locals (if err then es else os), l))
    (fun r => bind (ma r) (fun v => bind (mb r) (fun w => f v w))).
Proof.
  intros HA HB Ht Hf. fr_of HA. fr_of HB. split; [lia|].
  intros d B l code l' HC Hw. destruct (a d B l) as [ca l1] eqn:Ea. destruct (short_new t l1) as [[[[os es] v] cn] l2] eqn:En.
  destruct (b d B l2) as [cb l3] eqn:Eb. destruct (save_to_locals rt l3) as [[ts ct] l4] eqn:Es. injection HC as <- <-.
  ext_of HA Ea Xa. destruct (short_new_ok _ _ _ _ _ _ _ En (lext_wf _ _ Xa) Ht) as (Xn & Lo & Le & Lv & Hrun).
  assert (X2 : lext l l2) by (eapply lext_trans; eauto). ext_of HB Eb Xb. assert (X3 : lext l l3) by (eapply lext_trans; eauto).
  destruct (save_ok E _ _ _ _ _ Es (lext_wf _ _ Xb)) as (Xs & Hlv & Hln & Hrun2). split; [eapply lext_trans; eauto|].
  intros F r js ls k st sp Q rs Hm HC HL HX HW. rewrite <- !app_assoc.
  eapply (impl_next _ _ _ _ _ _ _ _ _ _ HA Ea);
    [exact HC|eapply moved_refl; eauto|lia|apply lext_refl; auto|eapply ctx_less; [exact HC|lia]|exact Hm|exact HX|lenl|].
  intros x h1 ls1 st1 sp1 ws HG HM1 Hm1 HL1.
  eapply Hrun; [exact (g_rep _ _ _ _ _ _ _ _ _ _ _ _ _ HG)|exact (g_type _ _ _ _ _ _ _ _ _ _ _ _ _ HG)|lenl|].
  intros ls2 w1 w2 tag HK V1 V2 Vt Ho. assert (HM2 := moved_ls' _ _ _ _ _ _ _ _ _ _ HM1 Xa HK).
  eapply (impl_next _ _ _ _ _ _ _ _ _ _ HB Eb);
    [exact HC|exact HM2|lia|exact X2|eapply ctx_moved; [exact HC|exact X2|exact HM2|lia]|exact Hm1|exact HX|lenl|].
  intros y h2 ls3 st3 sp3 ws3 HG3 HM3 Hm3 HL3. eapply Hrun2; [exact HL3|lenl|]. intros ls4 HK4 HV4.
  assert (HM4 := moved_ls' _ _ _ _ _ _ _ _ _ _ HM3 X3 HK4).
  assert (HK24 : lkeep l2 ls2 ls4). { eapply lkeep_trans; [exact Xb| |exact HK4]. apply HG3. }
  assert (V1' := lvals_keep _ _ _ _ _ HK24 Lo V1). assert (V2' := lvals_keep _ _ _ _ _ HK24 Le V2).
  assert (Vt' : nth_error ls4 v = Some (VI32 tag)) by (rewrite (lkeep_get _ _ _ _ HK24 Lv); exact Vt).
  assert (Ho' : opened (smem st3) (vis F sp3) t x tag w1 w2).
  { assert (HMv := g_moved _ _ _ _ _ _ _ _ _ _ _ _ _ HG3). destruct t; try discriminate; destruct x; cbn [opened] in *; try contradiction; auto;
      destruct Ho as (O1 & O2 & O3); (split; [exact O1|]); (split; [|exact O3]); eapply rep_moved; eauto. }
  pose proof (Hf _ _ _ y (shost st3) rs _ _ _ Ho' Hm3) as Hcase.
  assert (HLr : length ws3 = length (clar2wasm_ty rt)) by exact HL3.
  eapply (short_return_ok _ _ _ _ _ ws3 _ _ _ (match rs with Early _ _ => true | _ => false end)).
  - intros js' k' HW'. eapply wp_lgets; [exact HV4|exact HW'].
  - intros js' k' HW'. destruct Hcase as [(Htag & z & -> & _)|(Htag & ->)].
    + destruct err; subst tag; cbn [app]; eapply wp_lget; try exact Vt'; [exact HW'|]; apply wp_eqz32; exact HW'.
    + destruct err; subst tag; cbn [app]; eapply wp_lget; try exact Vt'; [exact HW'|]; apply wp_eqz32; exact HW'.
  - exact HLr.
  - intros Hb. destruct Hcase as [(Htag & z & -> & _)|(Htag & ->)]; [discriminate|]. cbn [exits] in HX. apply HX with (sp' := sp3).
    constructor; [eapply moved_more; [exact HM4|lia]|apply HG3|apply HG3|reflexivity].
  - intros Hb. destruct Hcase as [(Htag & z & -> & Hr & Hty)|(Htag & ->)]; [|discriminate].
    assert (HVz : lvals ls4 (if err then es else os) (if err then w2 else w1)) by (destruct err; auto).
    eapply wp_lgets; [exact HVz|]. apply (HW z (shost st3) ls4 st3 sp3 _ eq_refl).
    constructor; [eapply moved_more; [exact HM4|lia]|exact Hr|exact Hty|reflexivity].
Qed.

Definition ok_ty (t : ty) : ty := match t with TOpt t => t | TResp t _ => t | _ => TNo end.
Definition err_ty (t : ty) : ty := match t with TResp _ t => t | _ => TNo end.

Lemma unwrap_ok G t fa fb a b ma mb : impl G t fa a ma -> impl G rt fb b mb -> is_opt t || is_resp t = true ->
  impl G (ok_ty t) (fa + fb) (e_unwrap rt t a b)
    (fun r => bind (ma r) (fun v => bind (mb r) (fun w => match v with CSome v | COk v => ret v | CNone | CErr _ => early w | _ => bad end))).
Proof.
  intros HA HB Ht. apply (unwrap_gen_ok false G t fa fb a b ma mb (fun v w => match v with CSome v | COk v => ret v | CNone | CErr _ => early w | _ => bad end)); auto.
  intros m P v w h rs tag w1 w2 Ho Hr. destruct t; try discriminate; destruct v; cbn [opened] in Ho; try contradiction; cbn in Hr; injection Hr as <-.
  - right. auto.
  - destruct Ho as (-> & O1 & O2). left. split; auto. exists v. auto.
  - destruct Ho as (-> & O1 & O2). left. split; auto. exists v. auto.
  - destruct Ho as (-> & O1 & O2). right. auto.
Qed.
Lemma unwrap_err_ok G t fa fb a b ma mb : impl G t fa a ma -> impl G rt fb b mb -> is_resp t = true ->
  impl G (err_ty t) (fa + fb) (e_unwrap_err rt t a b)
    (fun r => bind (ma r) (fun v => bind (mb r) (fun w => match v with CErr v => ret v | COk _ => early w | _ => bad end))).
Proof.
  intros HA HB Ht. apply (unwrap_gen_ok true G t fa fb a b ma mb (fun v w => match v with CErr v => ret v | COk _ => early w | _ => bad end)); auto.
  { rewrite Ht. apply orb_true_r. }
  intros m P v w h rs tag w1 w2 Ho Hr. destruct t; try discriminate; destruct v; cbn [opened] in Ho; try contradiction; cbn in Hr; injection Hr as <-.
  - destruct Ho as (-> & O1 & O2). right. auto.
  - destruct Ho as (-> & O1 & O2). left. split; auto. exists v. auto.
Qed.

(** ** [asserts!] *)
Lemma asserts_ok G fc fb c b mc mb (pb : bool) : impl G TBool fc c mc -> impl G rt fb b mb ->
  (pb = true -> forall r h w h', mb r h = Some (Done w h') -> h' = h) ->
  impl G TBool (fc + fb) (e_asserts rt c b)
    (fun r => bind (mc r) (fun v =>
      match v with
      | CBool true => unless true (fun h => negb (pb && done (mb r) h)) (ret (CBool true))
      | CBool false => bind (mb r) (fun w => early w)
      | _ => bad
      end)).
Proof.
  intros HA HB Hp. fr_of HA. fr_of HB. split; [lia|].
  intros d B l code l' HC Hw. unfold e_asserts in HC. destruct (c d B l) as [cc l1] eqn:Ec. destruct (add_local T32 l1) as [p l2] eqn:Ep.
  destruct (b d B l2) as [cb l3] eqn:Eb. destruct (save_to_locals rt l3) as [[ts ct] l4] eqn:Es. injection HC as <- <-.
  ext_of HA Ec Xa. destruct (add_ok _ _ _ _ Ep (lext_wf _ _ Xa)) as (Xp & Lp & Np).
  assert (X2 : lext l l2) by (eapply lext_trans; eauto). ext_of HB Eb Xb. assert (X3 : lext l l3) by (eapply lext_trans; eauto).
  destruct (save_ok E _ _ _ _ _ Es (lext_wf _ _ Xb)) as (Xs & Hlv & Hln & Hrun2). split; [eapply lext_trans; eauto|].
  intros F r js ls k st sp Q rs Hm HC HL HX HW. rewrite <- !app_assoc.
  eapply (impl_next _ _ _ _ _ _ _ _ _ _ HA Ec);
    [exact HC|eapply moved_refl; eauto|lia|apply lext_refl; auto|eapply ctx_less; [exact HC|lia]|exact Hm|exact HX|lenl|].
  intros v h1 ls1 st1 sp1 ws HG HM1 Hm1 HL1.
  destruct (rep_bool _ _ _ _ (g_rep _ _ _ _ _ _ _ _ _ _ _ _ _ HG)) as (b0 & -> & ->). cbn [rev app]. apply wp_lset. rewrite <- ?app_assoc.
  assert (HK : lkeep l1 ls1 (lset ls1 p (VI32 (b2z b0)))) by (apply lkeep_lset; exact Np).
  assert (HM2 := moved_ls' _ _ _ _ _ _ _ _ _ _ HM1 Xa HK).
  assert (Vp : nth_error (lset ls1 p (VI32 (b2z b0))) p = Some (VI32 (b2z b0))) by (apply lset_same; assert (HLn := lkeep_len _ _ _ (m_ls _ _ _ _ _ _ _ _ HM1)); destruct Lp; lenl).
  assert (Hb' : bind (mb r) (fun w => if b0 then ret (CBool true) else early w) (shost st1) = Some rs).
  { destruct b0; [|exact Hm1]. cbn [unless] in Hm1. unfold unless in Hm1. cbn [andb] in Hm1.
    destruct pb; cbn [andb negb] in Hm1; [|discriminate]. unfold done in Hm1. unfold bind.
    destruct (mb r (shost st1)) as [[w h'| |]|] eqn:Hmb; cbn [negb] in Hm1; try discriminate.
    rewrite (Hp eq_refl _ _ _ _ Hmb). exact Hm1. }
  eapply (impl_next _ _ _ _ _ _ _ _ _ _ HB Eb);
    [exact HC|exact HM2|lia|exact X2|eapply ctx_moved; [exact HC|exact X2|exact HM2|lia]|exact Hb'|exact HX|lenl|].
  intros y h2 ls3 st3 sp3 ws3 HG3 HM3 Hm3 HL3. eapply Hrun2; [exact HL3|lenl|]. intros ls4 HK4 HV4.
  assert (HM4 := moved_ls' _ _ _ _ _ _ _ _ _ _ HM3 X3 HK4).
  assert (HK24 : lkeep l2 (lset ls1 p (VI32 (b2z b0))) ls4). { eapply lkeep_trans; [exact Xb| |exact HK4]. apply HG3. }
  assert (Vt' : nth_error ls4 p = Some (VI32 (b2z b0))) by (rewrite (lkeep_get _ _ _ _ HK24 Lp); exact Vp).
  eapply (short_return_ok _ _ _ _ _ ws3 _ _ _ (negb b0)).
  - intros js' k' HW'. eapply wp_lgets; [exact HV4|exact HW'].
  - intros js' k' HW'. cbn [app]. eapply wp_lget; [exact Vt'|]. apply wp_eqz32. destruct b0; exact HW'.
  - exact HL3.
  - intros Hb0. destruct b0; [discriminate|]. cbn in Hm3. injection Hm3 as <-. cbn [exits] in HX. apply HX with (sp' := sp3).
    constructor; [eapply moved_more; [exact HM4|lia]|apply HG3|apply HG3|reflexivity].
  - intros Hb0. destruct b0; [|discriminate]. cbn in Hm3. injection Hm3 as <-. cbn [app]. apply wp_const.
    apply (HW (CBool true) (shost st3) ls4 st3 sp3 [VI32 1] eq_refl).
    constructor; [eapply moved_more; [exact HM4|lia]|reflexivity|exact I|reflexivity].
Qed.

(** ** [try!] *)
Lemma try_ok G t fa a ma : impl G t fa a ma ->
  match t, rt with
  | TOpt t, TOpt r => list_eqb vt_eqb (clar2wasm_ty t) (clar2wasm_ty r)
  | TResp _ u, TResp _ s => widens u s
  | _, _ => false
  end = true ->
  impl G (ok_ty t) fa (e_try rt t a)
    (fun r => bind (ma r) (fun v => match v with CSome v | COk v => ret v | CNone => early CNone | CErr v => early (CErr v) | _ => bad end)).
Proof.
  intros HA Ht. fr_of HA. split; [lia|].
  intros d B l code l' HC Hw. unfold e_try in HC. destruct (a d B l) as [ca l1] eqn:Ea. destruct (short_new t l1) as [[[[os es] v] cn] l2] eqn:En.
  injection HC as <- <-. ext_of HA Ea Xa.
  assert (Ht' : is_opt t || is_resp t = true) by (destruct t; try discriminate; reflexivity).
  destruct (short_new_ok _ _ _ _ _ _ _ En (lext_wf _ _ Xa) Ht') as (Xn & Lo & Le & Lv & Hrun).
  split; [eapply lext_trans; eauto|].
  intros F r js ls k st sp Q rs Hm HC HL HX HW. rewrite <- !app_assoc.
  eapply (impl_next _ _ _ _ _ _ _ _ _ _ HA Ea);
    [exact HC|eapply moved_refl; eauto|lia|apply lext_refl; auto|eapply ctx_less; [exact HC|lia]|exact Hm|exact HX|lenl|].
  intros x h1 ls1 st1 sp1 ws HG HM1 Hm1 HL1.
  eapply Hrun; [exact (g_rep _ _ _ _ _ _ _ _ _ _ _ _ _ HG)|exact (g_type _ _ _ _ _ _ _ _ _ _ _ _ _ HG)|lenl|].
  intros ls2 w1 w2 tag HK V1 V2 Vt Ho. assert (HM2 := moved_ls' _ _ _ _ _ _ _ _ _ _ HM1 Xa HK).
  assert (HT : forall wr b, tag = b2z (negb b) -> length wr = length (clar2wasm_ty rt) ->
    (forall js' k', wp js' (mkcfg ls2 (rev wr ++ k') st1) Q ->
       wp ((match t, rt with
            | TOpt ti, _ => Const (VI32 0) :: placeholders ti
            | _, TResp to _ => Const (VI32 0) :: placeholders to ++ push_locals es
            | _, _ => []
            end) ++ js') (mkcfg ls2 k' st1) Q) ->
    (b = true -> Q (OBr d (mkcfg ls2 (rev wr ++ k) st1))) ->
    (b = false -> wp (push_locals os ++ js) (mkcfg ls2 k st1) Q) ->
    wp (short_return rt (match t, rt with
            | TOpt ti, _ => Const (VI32 0) :: placeholders ti
            | _, TResp to _ => Const (VI32 0) :: placeholders to ++ push_locals es
            | _, _ => []
            end) [LGet v; Eqz32] d ++ push_locals os ++ js) (mkcfg ls2 k st1) Q).
  { intros wr b0 Htag HLr HP H1 H2. eapply (short_return_ok _ _ _ _ _ wr _ _ _ b0); auto.
    intros js' k' HW'. cbn [app]. eapply wp_lget; [exact Vt|]. apply wp_eqz32. subst tag. destruct b0; exact HW'. }
  assert (HD : forall y, tag = 1 -> rep (smem st1) (vis F sp1) (ok_ty t) y w1 -> has_type (ok_ty t) y -> rs = Done y (shost st1) ->
    wp (push_locals os ++ js) (mkcfg ls2 k st1) Q).
  { intros y _ Hr Hty ->. eapply wp_lgets; [exact V1|]. apply (HW y (shost st1) ls2 st1 sp1 w1 eq_refl).
    constructor; [eapply moved_more; [exact HM2|lia]|exact Hr|exact Hty|reflexivity]. }
  destruct t; try discriminate; destruct rt as [| | | | | | | | | |rt'|rt1 rt2|] eqn:Hrt; try discriminate; destruct x; cbn [opened] in Ho; try contradiction; cbn in Hm1; injection Hm1 as <-.
  - apply list_eqb_eq in Ht; [|exact vt_eqb_eq]. cbn [exits] in HX.
    apply (HT (VI32 0 :: map zero_of (clar2wasm_ty t)) true); [exact Ho|cbn [length]; rewrite map_length, Ht; reflexivity| |intros _|discriminate].
    + intros js' k' HW'. cbn [app]. apply wp_const. apply wp_placeholders. cbn [rev] in HW'. rewrite <- app_assoc in HW'. exact HW'.
    + apply HX with (sp' := sp1). constructor; [eapply moved_more; [exact HM2|lia]| |exact I|reflexivity]. cbn [rep]. rewrite Ht.
      eexists. split; [reflexivity|]. apply zeros_typed.
  - destruct Ho as (-> & O1 & O2).
    apply list_eqb_eq in Ht; [|exact vt_eqb_eq].
    apply (HT (VI32 0 :: map zero_of (clar2wasm_ty t)) false); [reflexivity|cbn [length]; rewrite map_length, Ht; reflexivity| |discriminate|].
    + intros js' k' HW'. cbn [app]. apply wp_const. apply wp_placeholders. cbn [rev] in HW'. rewrite <- app_assoc in HW'. exact HW'.
    + intros _. eapply HD; eauto.
  - destruct Ho as (-> & O1 & O2).
    assert (Lw2 : length w2 = length (clar2wasm_ty t2)).
    { rewrite <- (F2_len _ _ _ V2). cbn [short_new] in En. destruct (save_to_locals t2 l1) as [[es1 ce] l3] eqn:Ee. destruct (save_to_locals t1 l3) as [[os1 co] l4] eqn:Eo.
      destruct (add_local T32 l4) as [v0 l5] eqn:Ev. injection En as <- <- <- <- <-. apply (save_ok E _ _ _ _ _ Ee (lext_wf _ _ Xa)). }
    apply (HT (VI32 0 :: map zero_of (clar2wasm_ty rt1) ++ w2) false); [reflexivity| | |discriminate|].
    + cbn [length clar2wasm_ty]. rewrite !app_length, map_length, Lw2, (widens_wasm _ _ Ht). reflexivity.
    + intros js' k' HW'. cbn [app]. apply wp_const. rewrite <- app_assoc. apply wp_placeholders. eapply wp_lgets; [exact V2|].
      cbn [rev] in HW'. rewrite rev_app_distr, <- !app_assoc in HW'. exact HW'.
    + intros _. eapply HD; eauto.
  - destruct Ho as (-> & O1 & O2). cbn [exits] in HX.
    apply (HT (VI32 0 :: map zero_of (clar2wasm_ty rt1) ++ w2) true); [reflexivity| | |intros _|discriminate].
    + cbn [length clar2wasm_ty]. rewrite !app_length, map_length, (rep_len _ _ _ _ _ O1), (widens_wasm _ _ Ht). reflexivity.
    + intros js' k' HW'. cbn [app]. apply wp_const. rewrite <- app_assoc. apply wp_placeholders. eapply wp_lgets; [exact V2|].
      cbn [rev] in HW'. rewrite rev_app_distr, <- !app_assoc in HW'. exact HW'.
    + apply HX with (sp' := sp1). constructor; [eapply moved_more; [exact HM2|lia]| | |reflexivity].
      * cbn [rep]. exists (map zero_of (clar2wasm_ty rt1)), w2. split; [reflexivity|]. split; [apply zeros_typed|]. eapply widens_rep; eauto.
      * cbn [has_type]. eapply widens_has_type; eauto.
Qed.

(** ** [unwrap-panic], [unwrap-err-panic] *)
Lemma panic_wp d js ls k (st : store HS) F l ls0 st0 sp n Q rs (G : tenv) B r :
  ctx G B r F l ls0 st0 sp n -> exits (A := value) rt d F l ls0 st0 sp n Q rs -> rs = Abort err_panic ->
  (forall n, n <> "stack-pointer" -> gget (sglob st) n = gget (sglob st0) n) ->
  wp panic (mkcfg ls [] st) (qblock E 0 k js Q).
Proof.
  intros HC HX -> Hg. unfold panic. apply wp_const. wcall HE. apply (runtime_error_wp E HE).
  unfold qcall, cont, ret_call, err, qblock, exit_block, cont. cbn [exits] in HX. apply HX. cbn [sglob with_glob].
  destruct (c_err _ _ _ _ _ _ _ _ _ _ _ HC) as (w & Hw). eapply gget_set. rewrite Hg by discriminate. exact Hw.
Qed.

(** the panic test of a tag *)
Lemma panic_test (flip : bool) tag js ls k (st : store HS) F l ls0 st0 sp n d Q rs (G : tenv) B r :
  ctx G B r F l ls0 st0 sp n -> exits (A := value) rt d F l ls0 st0 sp n Q rs ->
  (forall n, n <> "stack-pointer" -> gget (sglob st) n = gget (sglob st0) n) ->
  (tag = (if flip then 0 else 1) /\ wp js (mkcfg ls k st) Q) \/ (tag = (if flip then 1 else 0) /\ rs = Abort err_panic) ->
  wp (Eqz32 :: If 0 0 (if flip then [] else panic) (if flip then panic else []) :: js) (mkcfg ls (VI32 tag :: k) st) Q.
Proof.
  intros HC HX Hg [(-> & HW)|(-> & Hrs)]; apply wp_eqz32; apply wp_if0.
  - destruct flip; cbn [Z.eqb b2z]; apply qb_done; exact HW.
  - destruct flip; cbn [Z.eqb b2z]; eapply panic_wp; eauto.
Qed.

Lemma unwrap_panic_ok G t fa a ma : impl G t fa a ma -> is_opt t || is_resp t = true ->
  impl G (ok_ty t) fa (e_unwrap_panic t a)
    (fun r => bind (ma r) (fun v => match v with CSome v | COk v => ret v | CNone | CErr _ => abort err_panic | _ => bad end)).
Proof.
  intros HA Ht. fr_of HA. split; [lia|].
  intros d B l code l' HC Hw. unfold e_unwrap_panic in HC. destruct (a d B l) as [ca l1] eqn:Ea. ext_of HA Ea Xa.
  assert (exists is cs l2, save_to_locals (ok_ty t) l1 = (is, cs, l2)) as (is & cs & l2 & Es)
    by (destruct (save_to_locals (ok_ty t) l1) as [[is cs] l2]; eauto).
  destruct (save_ok E _ _ _ _ _ Es (lext_wf _ _ Xa)) as (Xs & Hlv & Hln & Hrun).
  assert (HCd : code = ca ++ (match t with TResp _ te => drop_value te | _ => [] end) ++ cs ++ [Eqz32; If 0 0 panic []] ++ push_locals is /\ l' = l2).
  { destruct t; try discriminate; cbn [ok_ty] in Es; rewrite Es in HC; injection HC as <- <-; auto. }
  destruct HCd as (-> & ->). clear HC. split; [eapply lext_trans; eauto|].
  intros F r js ls k st sp Q rs Hm HC HL HX HW. rewrite <- !app_assoc.
  eapply (impl_next _ _ _ _ _ _ _ _ _ _ HA Ea);
    [exact HC|eapply moved_refl; eauto|lia|apply lext_refl; auto|exact HC|exact Hm|exact HX|lenl|].
  intros x h1 ls1 st1 sp1 ws HG HM1 Hm1 HL1.
  assert (HT : forall tag w1 w2, length w1 = length (clar2wasm_ty (ok_ty t)) -> length w2 = length (match t with TResp _ te => clar2wasm_ty te | _ => [] end) ->
    (tag = 1 /\ (exists y, rs = Done y (shost st1) /\ rep (smem st1) (vis F sp1) (ok_ty t) y w1 /\ has_type (ok_ty t) y)) \/ (tag = 0 /\ rs = Abort err_panic) ->
    wp ((match t with TResp _ te => drop_value te | _ => [] end) ++ cs ++ [Eqz32; If 0 0 panic []] ++ push_locals is ++ js) (mkcfg ls1 (rev (VI32 tag :: w1 ++ w2) ++ k) st1) Q).
  { intros tag w1 w2 L1 L2 HD. cbn [rev]. rewrite rev_app_distr, <- !app_assoc.
    assert (HR : wp (cs ++ [Eqz32; If 0 0 panic []] ++ push_locals is ++ js) (mkcfg ls1 (rev w1 ++ [VI32 tag] ++ k) st1) Q).
    { eapply Hrun; [exact L1|lenl|]. intros ls2 HK HV. cbn [app].
      apply (panic_test false tag _ ls2 k st1 F l ls st sp fa d Q rs G B r HC HX (m_glob _ _ _ _ _ _ _ _ HM1)).
      destruct HD as [(-> & y & -> & Hr & Hty)|(-> & ->)]; [left|right; auto]. split; auto. eapply wp_lgets; [exact HV|].
      apply (HW y (shost st1) ls2 st1 sp1 w1 eq_refl). constructor; [|exact Hr|exact Hty|reflexivity].
      eapply moved_ls'; [exact HM1|exact Xa|exact HK]. }
    destruct t; try discriminate; [destruct w2; [exact HR|discriminate]|]. apply wp_drops; auto. }
  destruct t; try discriminate; pose proof (g_type _ _ _ _ _ _ _ _ _ _ _ _ _ HG) as HTy.
  - destruct (rep_opt _ _ _ _ _ (g_rep _ _ _ _ _ _ _ _ _ _ _ _ _ HG)) as [(-> & w1 & -> & Hw1)|(y & -> & w1 & -> & Hw1)].
    + rewrite <- (app_nil_r w1). eapply (HT 0 w1 []); [symmetry; eapply F2_len; eauto|reflexivity|right]. injection Hm1 as <-. auto.
    + rewrite <- (app_nil_r w1). eapply (HT 1 w1 []); [eapply rep_len; eauto|reflexivity|left]. injection Hm1 as <-. split; auto. exists y. auto.
  - destruct (rep_resp _ _ _ _ _ _ (g_rep _ _ _ _ _ _ _ _ _ _ _ _ _ HG)) as [(y & -> & w1 & w2 & -> & Hw1 & Hw2)|(y & -> & w1 & w2 & -> & Hw1 & Hw2)].
    + eapply (HT 1 w1 w2); [eapply rep_len; eauto|symmetry; eapply F2_len; eauto|left]. injection Hm1 as <-. split; auto. exists y. auto.
    + eapply (HT 0 w1 w2); [symmetry; eapply F2_len; eauto|eapply rep_len; eauto|right]. injection Hm1 as <-. auto.
Qed.

Lemma unwrap_err_panic_ok G t fa a ma : impl G t fa a ma -> is_resp t = true ->
  impl G (err_ty t) fa (e_unwrap_err_panic t a)
    (fun r => bind (ma r) (fun v => match v with CErr v => ret v | COk _ => abort err_panic | _ => bad end)).
Proof.
  intros HA Ht. fr_of HA. split; [lia|]. destruct t; try discriminate. cbn [err_ty].
  intros d B l code l' HC Hw. unfold e_unwrap_err_panic in HC. destruct (a d B l) as [ca l1] eqn:Ea. ext_of HA Ea Xa.
  destruct (save_to_locals t2 l1) as [[es cs] l2] eqn:Es. injection HC as <- <-.
  destruct (save_ok E _ _ _ _ _ Es (lext_wf _ _ Xa)) as (Xs & Hlv & Hln & Hrun). split; [eapply lext_trans; eauto|].
  intros F r js ls k st sp Q rs Hm HC HL HX HW. rewrite <- !app_assoc.
  eapply (impl_next _ _ _ _ _ _ _ _ _ _ HA Ea);
    [exact HC|eapply moved_refl; eauto|lia|apply lext_refl; auto|exact HC|exact Hm|exact HX|lenl|].
  intros x h1 ls1 st1 sp1 ws HG HM1 Hm1 HL1. pose proof (g_type _ _ _ _ _ _ _ _ _ _ _ _ _ HG) as HTy.
  assert (HT : forall tag w1 w2, length w1 = length (clar2wasm_ty t1) -> length w2 = length (clar2wasm_ty t2) ->
    (tag = 0 /\ (exists y, rs = Done y (shost st1) /\ rep (smem st1) (vis F sp1) t2 y w2 /\ has_type t2 y)) \/ (tag = 1 /\ rs = Abort err_panic) ->
    wp (cs ++ drop_value t1 ++ [Eqz32; If 0 0 [] panic] ++ push_locals es ++ js) (mkcfg ls1 (rev (VI32 tag :: w1 ++ w2) ++ k) st1) Q).
  { intros tag w1 w2 L1 L2 HD. cbn [rev]. rewrite rev_app_distr, <- !app_assoc. eapply Hrun; [exact L2|lenl|]. intros ls2 HK HV.
    apply wp_drops; [exact L1|]. cbn [app].
    apply (panic_test true tag _ ls2 k st1 F l ls st sp fa d Q rs G B r HC HX (m_glob _ _ _ _ _ _ _ _ HM1)).
    destruct HD as [(-> & y & -> & Hr & Hty)|(-> & ->)]; [left|right; auto]. split; auto. eapply wp_lgets; [exact HV|].
    apply (HW y (shost st1) ls2 st1 sp1 w2 eq_refl). constructor; [|exact Hr|exact Hty|reflexivity].
    eapply moved_ls'; [exact HM1|exact Xa|exact HK]. }
  destruct (rep_resp _ _ _ _ _ _ (g_rep _ _ _ _ _ _ _ _ _ _ _ _ _ HG)) as [(y & -> & w1 & w2 & -> & Hw1 & Hw2)|(y & -> & w1 & w2 & -> & Hw1 & Hw2)].
  - eapply (HT 1 w1 w2); [eapply rep_len; eauto|symmetry; eapply F2_len; eauto|right]. injection Hm1 as <-. auto.
  - eapply (HT 0 w1 w2); [symmetry; eapply F2_len; eauto|eapply rep_len; eauto|left]. injection Hm1 as <-. split; auto. exists y. auto.
Qed.

(** ** [is-some], [is-none], [is-ok], [is-err] *)
Lemma tag_ok G t fa a ma (flip : bool) (f : value -> M HS value) : impl G t fa a ma -> is_opt t || is_resp t = true ->
  (forall m P v h rs tag w1 w2, opened m P t v tag w1 w2 -> f v h = Some rs -> rs = Done (CBool (xorb flip (tag =? 1))) h) ->
  impl G TBool fa (e_tag t flip a) (fun r => bind (ma r) f).
Proof.
  intros HA Ht Hf. fr_of HA. split; [lia|].
  intros d B l code l' HC Hw. unfold e_tag in HC. destruct (a d B l) as [ca l1] eqn:Ea. injection HC as <- <-. ext_of HA Ea Xa. split; auto.
  intros F r js ls k st sp Q rs Hm HC HL HX HW. rewrite <- !app_assoc.
  eapply (impl_next _ _ _ _ _ _ _ _ _ _ HA Ea);
    [exact HC|eapply moved_refl; eauto|lia|apply lext_refl; auto|exact HC|exact Hm|exact HX|lenl|].
  intros x h1 ls1 st1 sp1 ws HG HM1 Hm1 HL1. pose proof (g_type _ _ _ _ _ _ _ _ _ _ _ _ _ HG) as HTy.
  assert (HT : forall tag w1 w2, tag = 0 \/ tag = 1 -> opened (smem st1) (vis F sp1) t x tag w1 w2 ->
     wp ((if flip then [Const (VI32 1); B32 Xor] else []) ++ js) (mkcfg ls1 (VI32 tag :: k) st1) Q).
  { intros tag w1 w2 Htag Ho. pose proof (Hf _ _ _ _ _ _ _ _ Ho Hm1) as Hrs.
    assert (HW1 : wp js (mkcfg ls1 (VI32 (b2z (xorb flip (tag =? 1))) :: k) st1) Q).
    { apply (HW _ (shost st1) ls1 st1 sp1 [VI32 (b2z (xorb flip (tag =? 1)))] Hrs). constructor; [exact HM1|reflexivity|exact I|reflexivity]. }
    destruct Htag as [-> | ->], flip; cbn [app]; try exact HW1; apply wp_const; eapply wp_b32; try reflexivity; exact HW1. }
  destruct t; try discriminate.
  - destruct (rep_opt _ _ _ _ _ (g_rep _ _ _ _ _ _ _ _ _ _ _ _ _ HG)) as [(-> & w1 & -> & Hw1)|(y & -> & w1 & -> & Hw1)]; cbn [rev]; rewrite <- app_assoc.
    + apply wp_drops; [symmetry; eapply F2_len; eauto|]. eapply (HT 0 w1 []); auto. reflexivity.
    + apply wp_drops; [eapply rep_len; eauto|]. eapply (HT 1 w1 []); auto. cbn. auto.
  - destruct (rep_resp _ _ _ _ _ _ (g_rep _ _ _ _ _ _ _ _ _ _ _ _ _ HG)) as [(y & -> & w1 & w2 & -> & Hw1 & Hw2)|(y & -> & w1 & w2 & -> & Hw1 & Hw2)];
      cbn [rev]; rewrite rev_app_distr, <- !app_assoc.
    + apply wp_drops; [symmetry; eapply F2_len; eauto|]. apply wp_drops; [eapply rep_len; eauto|]. eapply (HT 1 w1 w2); auto. cbn. auto.
    + apply wp_drops; [eapply rep_len; eauto|]. apply wp_drops; [symmetry; eapply F2_len; eauto|]. eapply (HT 0 w1 w2); auto. cbn. auto.
Qed.

(** ** [default-to] *)
Lemma default_ok G t fa fb a b ma mb : impl G t fa a ma -> impl G (TOpt t) fb b mb ->
  impl G t (fa + fb) (e_default t a b)
    (fun r => bind (ma r) (fun d => bind (mb r) (fun v => match v with CSome v => ret v | CNone => ret d | _ => bad end))).
Proof.
  intros HA HB. fr_of HA. fr_of HB. split; [lia|].
  intros d B l code l' HC Hw. unfold e_default in HC. destruct (a d B l) as [ca l1] eqn:Ea. destruct (b d B l1) as [cb l2] eqn:Eb.
  destruct (save_to_locals t l2) as [[is cs] l3] eqn:Es. injection HC as <- <-.
  ext_of HA Ea Xa. ext_of HB Eb Xb. assert (X2 : lext l l2) by (eapply lext_trans; eauto).
  destruct (save_ok E _ _ _ _ _ Es (lext_wf _ _ Xb)) as (Xs & Hlv & Hln & Hrun). split; [eapply lext_trans; eauto|].
  intros F r js ls k st sp Q rs Hm HC HL HX HW. rewrite <- !app_assoc.
  eapply (impl_next _ _ _ _ _ _ _ _ _ _ HA Ea);
    [exact HC|eapply moved_refl; eauto|lia|apply lext_refl; auto|eapply ctx_less; [exact HC|lia]|exact Hm|exact HX|lenl|].
  intros x h1 ls1 st1 sp1 ws HG HM1 Hm1 HL1.
  eapply (impl_next _ _ _ _ _ _ _ _ _ _ HB Eb);
    [exact HC|exact HM1|lia|exact Xa|eapply ctx_moved; [exact HC|exact Xa|exact HM1|lia]|exact Hm1|exact HX|lenl|].
  intros y h2 ls2 st2 sp2 ws2 HG2 HM2 Hm2 HL2.
  assert (HRx : rep (smem st2) (vis F sp2) t x ws) by (eapply rep_moved; [apply HG2|apply HG]).
  pose proof (g_type _ _ _ _ _ _ _ _ _ _ _ _ _ HG) as TX. pose proof (g_type _ _ _ _ _ _ _ _ _ _ _ _ _ HG2) as TY.
  assert (Hlen : length (rev ws) = length (clar2wasm_ty t)) by (rewrite rev_length; exact HL1).
  destruct (rep_opt _ _ _ _ _ (g_rep _ _ _ _ _ _ _ _ _ _ _ _ _ HG2)) as [(-> & w1 & -> & Hw1)|(z & -> & w1 & -> & Hw1)]; cbn [rev]; rewrite <- app_assoc.
  - eapply Hrun; [symmetry; eapply F2_len; eauto|lenl|]. intros ls3 HK HV. cbn [app].
    eapply wp_if; [reflexivity|]. cbn [Z.eqb]. apply wp_nil. unfold qblock, cont, exit_block, setstk. cbn [cstack clocals cstore].
    rewrite firstn_skipn. injection Hm2 as <-. apply (HW x (shost st2) ls3 st2 sp2 ws eq_refl).
    constructor; [|exact HRx|exact TX|reflexivity]. eapply moved_more; [eapply moved_ls'; [exact HM2|exact X2|exact HK]|lia].
  - eapply Hrun; [eapply rep_len; eauto|lenl|]. intros ls3 HK HV. cbn [app].
    eapply wp_if; [reflexivity|]. cbn [Z.eqb]. unfold setstk; cbn [clocals cstore].
    rewrite firstn_app, <- Hlen, Nat.sub_diag, firstn_all, firstn_O. eapply wp_drops; [exact HL1|].
    rewrite <- (app_nil_r (push_locals is)). eapply wp_lgets; [exact HV|]. apply qb_done. rewrite app_nil_r.
    rewrite skipn_app, Nat.sub_diag, skipn_all, skipn_O. cbn [app]. injection Hm2 as <-. apply (HW z (shost st2) ls3 st2 sp2 w1 eq_refl).
    constructor; [|exact Hw1|exact TY|reflexivity]. eapply moved_more; [eapply moved_ls'; [exact HM2|exact X2|exact HK]|lia].
Qed.
End Early.
