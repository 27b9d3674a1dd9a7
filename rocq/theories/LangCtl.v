(** * Correctness of emitted expression code: constants, variables, control flow (proof support) *)
From Coq Require Import ZArith String List Bool Lia.
Import ListNotations.
From Verif Require Import Wasm Std StdEnv WasmLogic WasmTac Mem MemFacts Spec Clar Rep RepFacts Emit EmitFacts EmitProofs
  CallProofs Ast SpecLang Lang Typing LangFacts LangBase.
Open Scope string_scope.
Open Scope list_scope.
Open Scope Z_scope.

Lemma zeros_typed ts : Forall2 wtyped ts (map zero_of ts).
Proof. induction ts as [|[] ts IH]; cbn; constructor; auto; cbn; lia. Qed.

Section Ctl.
Context {HS : Type} {CH : chain HS} (E : env HS) (rt : ty) (L : list (ty * value * Z)) (X : Z).
Notation wp := (wp E).
Notation impl := (impl E rt L X).
Notation ctx := (ctx L X).

(** ** Helpers *)

(** running a fragment whose outcome is the outcome of the whole *)
Lemma impl_tail G t fr c m d B l1 cc l2 :
  impl G t fr c m -> c d B l1 = (cc, l2) -> lwf l1 ->
  forall (F F1 : Z -> Prop) r js l ls ls1 k st st1 sp sp1 n n1 Q rs, m r (shost st1) = Some rs ->
    lext l l1 -> moved l ls st sp n1 ls1 st1 sp1 -> n1 + fr <= n -> (forall a, F1 a -> F a) ->
    ctx G B r F1 l1 ls1 st1 sp1 fr -> (llen l2 <= length ls)%nat ->
    exits rt d F l ls st sp n Q rs ->
    (forall v h ls2 st2 sp2 ws, rs = Done v h -> gives F1 t v h l1 ls1 st1 sp1 fr ls2 st2 sp2 ws ->
       gives F t v h l ls st sp (n1 + fr) ls2 st2 sp2 ws -> wp js (mkcfg ls2 (rev ws ++ k) st2) Q) ->
    wp (cc ++ js) (mkcfg ls1 k st1) Q.
Proof.
  intros (Hfr & HI) HC Hw F F1 r js l ls ls1 k st st1 sp sp1 n n1 Q rs Hb Hx HM Hn HF HCtx HL HX HW.
  destruct (HI _ _ _ _ _ HC Hw) as (Hx2 & Hrun).
  eapply Hrun; eauto.
  - rewrite (lkeep_len _ _ _ (m_ls _ _ _ _ _ _ _ _ HM)). exact HL.
  - eapply (exits_sub rt d F F1 l l1 ls ls1 st st1 sp sp1 n n1 fr Q rs rs HX Hx HM Hn HF). destruct rs; auto.
  - intros v h ls' st' sp' ws -> HG. eapply HW; [reflexivity|exact HG|]. destruct HG as [A1 A2 A3 A4]. constructor; auto.
    + eapply moved_trans; eauto.
    + eapply rep_weaken; [|exact A2]. intros a (H1 & H2). split; auto.
Qed.

Lemma ctx_bind G B r F l ls (st : store HS) sp n x t is v ws : ctx G B r F l ls st sp n -> Forall (live l) is -> lvals ls is ws ->
  rep (smem st) (vis F sp) t v ws -> has_type t v ->
  ctx ((x, t) :: G) ((x, is) :: B) ((x, v) :: r) F l ls st sp n.
Proof.
  intros [C1 C0 C2 C3 C4 C5 C6 C7] H1 H2 H3 H4. constructor; auto. intros y ty. cbn [assoc].
  destruct (String.eqb x y).
  - intros H; injection H as <-. exists is, v, ws. auto 8.
  - apply C6.
Qed.

Lemma qb_done nr rest is Q ls k (st : store HS) : wp is (mkcfg ls (k ++ rest) st) Q -> wp [] (mkcfg ls k st) (qblock E nr rest is Q).
Proof. intros H. apply wp_nil. exact H. Qed.

(** an [if] without parameters *)
Lemma wp_if0 nr t e is ls c k (st : store HS) Q :
  wp (if c =? 0 then e else t) (mkcfg ls [] st) (qblock E nr k is Q) -> wp (If 0 nr t e :: is) (mkcfg ls (VI32 c :: k) st) Q.
Proof. intros H. eapply wp_if; [reflexivity|]. exact H. Qed.

Lemma gives_ls F t v h l ls st sp n ls1 st1 sp1 ws l1 ls2 : gives F t v h l ls st sp n ls1 st1 sp1 ws -> lext l l1 -> lkeep l1 ls1 ls2 ->
  gives (HS := HS) F t v h l ls st sp n ls2 st1 sp1 ws.
Proof. intros [A1 A2 A3 A4] B C. constructor; auto. eapply moved_ls'; eauto. Qed.
Lemma gives_more F t v h l ls st sp n n' ls1 st1 sp1 ws : gives (HS := HS) F t v h l ls st sp n ls1 st1 sp1 ws -> n <= n' -> gives F t v h l ls st sp n' ls1 st1 sp1 ws.
Proof. intros [A1 A2 A3 A4] H. constructor; auto. eapply moved_more; eauto. Qed.

Lemma impl_fr G t fr c m : impl G t fr c m -> 0 <= fr.
Proof. intros H; apply H. Qed.
Lemma impl_ext G t fr c m d B l cc l' : impl G t fr c m -> c d B l = (cc, l') -> lwf l -> lext l l'.
Proof. intros (_ & H) HC Hw. apply (H _ _ _ _ _ HC Hw). Qed.
Lemma impl_more G t fr fr' c m : impl G t fr c m -> fr <= fr' -> impl G t fr' c m.
Proof.
  intros (Hfr & HI) Hle. split; [lia|]. intros d B l code l' HC Hl. destruct (HI _ _ _ _ _ HC Hl) as (Hx & Hrun). split; auto.
  intros F r js ls k st sp Q rs Hm HCtx HL HX HW. eapply Hrun; eauto.
  - eapply ctx_less; eauto.
  - destruct rs; cbn [exits] in *; auto. intros. eapply HX. eapply gives_more; eauto.
  - intros. eapply HW; eauto. eapply gives_more; eauto.
Qed.
Lemma impl_ext_m G t fr c m m' : impl G t fr c m -> (forall r h, m' r h = m r h) -> impl G t fr c m'.
Proof.
  intros (Hfr & HI) Hle. split; [lia|]. intros d B l code l' HC Hl. destruct (HI _ _ _ _ _ HC Hl) as (Hx & Hrun). split; auto.
  intros F r js ls k st sp Q rs Hm HCtx HL HX HW. rewrite Hle in Hm. eapply Hrun; eauto.
Qed.

(** running a sub-fragment from a state reached from the start of the fragment *)
Lemma impl_next {A} G t fr c m d B l1 cc l2 : impl G t fr c m -> c d B l1 = (cc, l2) -> forall G0 B0 (F : Z -> Prop) r0 l ls ls1 st st1 sp sp1 n n1,
  ctx G0 B0 r0 F l ls st sp n -> moved l ls st sp n1 ls1 st1 sp1 -> n1 + fr <= n -> lext l l1 ->
  forall r, ctx G B r F l1 ls1 st1 sp1 fr ->
  forall (f : value -> M HS A) js k Q rs, bind (m r) f (shost st1) = Some rs -> exits rt d F l ls st sp n Q rs -> (llen l2 <= length ls)%nat ->
    (forall v h ls2 st2 sp2 ws, gives F t v h l1 ls1 st1 sp1 fr ls2 st2 sp2 ws -> moved l ls st sp (n1 + fr) ls2 st2 sp2 ->
       f v (shost st2) = Some rs -> length ws = length (clar2wasm_ty t) -> wp js (mkcfg ls2 (rev ws ++ k) st2) Q) ->
    wp (cc ++ js) (mkcfg ls1 k st1) Q.
Proof.
  intros HI HC G0 B0 F r0 l ls ls1 st st1 sp sp1 n n1 H0 HM Hn Hx r H1 f js k Q rs Hb HX HL HW.
  eapply (impl_run _ _ _ _ _ _ _ _ _ _ _ _ _ _ HI HC (lext_wf _ _ Hx) _ F F); eauto.
  intros v h ls2 st2 sp2 ws HG HM2 Hf. eapply HW; eauto.
  - rewrite (g_host _ _ _ _ _ _ _ _ _ _ _ _ _ HG). exact Hf.
  - symmetry; apply F2_len with (R := wtyped); eapply rep_typed; apply HG.
Qed.
Lemma impl_last G t fr c m d B l1 cc l2 : impl G t fr c m -> c d B l1 = (cc, l2) -> forall G0 B0 (F : Z -> Prop) r0 l ls ls1 st st1 sp sp1 n n1,
  ctx G0 B0 r0 F l ls st sp n -> moved l ls st sp n1 ls1 st1 sp1 -> n1 + fr <= n -> lext l l1 ->
  forall r, ctx G B r F l1 ls1 st1 sp1 fr ->
  forall js k Q rs, m r (shost st1) = Some rs -> exits rt d F l ls st sp n Q rs -> (llen l2 <= length ls)%nat ->
    (forall v h ls2 st2 sp2 ws, rs = Done v h -> gives F t v h l ls st sp n ls2 st2 sp2 ws -> wp js (mkcfg ls2 (rev ws ++ k) st2) Q) ->
    wp (cc ++ js) (mkcfg ls1 k st1) Q.
Proof.
  intros HI HC G0 B0 F r0 l ls ls1 st st1 sp sp1 n n1 H0 HM Hn Hx r H1 js k Q rs Hb HX HL HW.
  eapply (impl_tail _ _ _ _ _ _ _ _ _ _ HI HC (lext_wf _ _ Hx) F F); eauto.
  intros v h ls2 st2 sp2 ws Hd _ HG. eapply HW; eauto. eapply gives_more; eauto.
Qed.

(** code that pushes the value [v] *)
Lemma impl_const G t v ws : (forall m P, rep m P t v ws) -> has_type t v ->
  impl G t 0 (fun _ _ l => (map Const ws, l)) (fun _ => ret v).
Proof.
  intros Hr Ht. split; [lia|]. intros d B l code l' HC Hw. injection HC as <- <-. split; [apply lext_refl; auto|].
  intros F r js ls k st sp Q rs Hm HC HL HX HW. injection Hm as <-.
  assert (HP : forall k, wp js (mkcfg ls (rev ws ++ k) st) Q -> wp (map Const ws ++ js) (mkcfg ls k st) Q).
  { clear. induction ws as [|w ws IH]; intros k HW; [exact HW|]. cbn [map app]. apply wp_const. apply IH.
    cbn [rev] in HW. rewrite <- app_assoc in HW. exact HW. }
  apply HP. apply (HW v (shost st) ls st sp ws); [reflexivity|]. constructor; auto. eapply moved_refl; eauto.
Qed.

Lemma num_ok G t z : is_num t = true -> fitsb t z = true -> impl G t 0 (e_num z) (fun _ => ret (num t z)).
Proof.
  intros H1 H2. apply (impl_const G t (num t z) [VI64 (z mod m64); VI64 (z / m64 mod m64)]).
  - destruct t; try discriminate; reflexivity.
  - destruct t; try discriminate; cbn [fitsb num has_type] in *; lia.
Qed.
Lemma bool_ok G b : impl G TBool 0 (e_bool b) (fun _ => ret (CBool b)).
Proof. apply (impl_const G TBool (CBool b) [VI32 (if b then 1 else 0)]); cbn; auto. Qed.
Lemma none_ok G t : is_opt t = true -> impl G t 0 (e_none t) (fun _ => ret CNone).
Proof.
  intros H. destruct t; try discriminate. unfold e_none, placeholders.
  eapply impl_ext_m with (m := fun _ => ret CNone); [|reflexivity].
  replace (map placeholder (clar2wasm_ty (TOpt t))) with (map Const (map zero_of (clar2wasm_ty (TOpt t)))) by (rewrite map_map; reflexivity).
  apply (impl_const G (TOpt t) CNone).
  - intros m P. cbn [rep clar2wasm_ty map]. eexists. split; [reflexivity|]. apply zeros_typed.
  - exact I.
Qed.
Lemma bytes_ok G t v o : In (t, v, o) L -> impl G t 0 (e_bytes o (lit_len v)) (fun _ => ret v).
Proof.
  intros Hin. split; [lia|]. intros d B l code l' HC Hw. injection HC as <- <-. split; [apply lext_refl; auto|].
  intros F r js ls k st sp Q rs Hm HC HL HX HW. injection Hm as <-. cbn [app].
  apply wp_const. apply wp_const. pose proof (c_lits _ _ _ _ _ _ _ _ _ _ _ HC) as HF. rewrite Forall_forall in HF.
  destruct (HF _ Hin) as (H1 & H2).
  apply (HW v (shost st) ls st sp [VI32 o; VI32 (lit_len v)]); [reflexivity|]. constructor; auto. eapply moved_refl; eauto.
Qed.
Lemma var_ok G t t0 x : assoc x G = Some t0 -> widens t0 t = true -> impl G t 0 (e_var x) (fun r => of_opt (assoc x r)).
Proof.
  intros Hx Hwd. eapply impl_widen; [|exact Hwd]. split; [lia|]. intros d B l code l' HC Hw. injection HC as <- <-. split; [apply lext_refl; auto|].
  intros F r js ls k st sp Q rs Hm HC HL HX HW.
  destruct (c_vars _ _ _ _ _ _ _ _ _ _ _ HC _ _ Hx) as (is & v & ws & H1 & H2 & H3 & H4 & H5 & H6).
  rewrite H3 in Hm. injection Hm as <-. rewrite H1. eapply wp_lgets; [exact H4|].
  apply (HW v (shost st) ls st sp ws); [reflexivity|]. constructor; auto. eapply moved_refl; eauto.
Qed.


(** ** Sequencing *)
Ltac fr_of H := let P := fresh "P" in pose proof (impl_fr _ _ _ _ _ H) as P.
(** the fragment [E : c d B l = (cc, l')] extends the allocator *)
Ltac ext_of H E X := let W := fresh in
  match type of E with ?c ?d ?B ?l = _ =>
    assert (W : lwf l) by (assumption || (eapply lext_wf; eassumption));
    pose proof (impl_ext _ _ _ _ _ _ _ _ _ _ H E W) as X; clear W end.
Ltac lenl := repeat match goal with H : lext _ _ |- _ => apply lext_len in H end; lia.

Lemma seq_ok G ta tb fa fb a b ma mb : impl G ta fa a ma -> impl G tb fb b mb ->
  impl G tb (fa + fb) (e_seq ta a b) (fun r => bind (ma r) (fun _ => mb r)).
Proof.
  intros HA HB. fr_of HA. fr_of HB. split; [lia|].
  intros d B l code l' HC Hw. unfold e_seq in HC.
  destruct (a d B l) as [ca l1] eqn:Ea. destruct (b d B l1) as [cb l2] eqn:Eb. injection HC as <- <-.
  ext_of HA Ea Xa. ext_of HB Eb Xb. split; [eapply lext_trans; eauto|].
  intros F r js ls k st sp Q rs Hm HC HL HX HW. rewrite <- !app_assoc.
  eapply (impl_next _ _ _ _ _ _ _ _ _ _ HA Ea);
    [exact HC|eapply moved_refl; eauto|lia|apply lext_refl; auto|eapply ctx_less; [exact HC|lia]|exact Hm|exact HX|lenl|].
  intros v h ls1 st1 sp1 ws HG HM1 Hm1 HL1. eapply wp_drops; [exact HL1|].
  eapply (impl_last _ _ _ _ _ _ _ _ _ _ HB Eb);
    [exact HC|exact HM1|lia|exact Xa|eapply ctx_moved; [exact HC|exact Xa|exact HM1|lia]|exact Hm1|exact HX|lenl|exact HW].
Qed.

Lemma let_ok G x ta tb fa fb a b ma mb : impl G ta fa a ma -> impl ((x, ta) :: G) tb fb b mb ->
  impl G tb (fa + fb) (e_let x ta a b) (fun r => bind (ma r) (fun v => mb ((x, v) :: r))).
Proof.
  intros HA HB. fr_of HA. fr_of HB. split; [lia|].
  intros d B l code l' HC Hw. unfold e_let in HC.
  destruct (a d B l) as [ca l1] eqn:Ea. destruct (save_to_locals ta l1) as [[is cs] l2] eqn:Es.
  destruct (b d ((x, is) :: B) l2) as [cb l3] eqn:Eb. injection HC as <- <-.
  ext_of HA Ea Xa. destruct (save_ok E _ _ _ _ _ Es (lext_wf _ _ Xa)) as (Xs & Hlv & _ & Hrun).
  assert (X2 : lext l l2) by (eapply lext_trans; eauto). ext_of HB Eb Xb. split; [eapply lext_trans; eauto|].
  intros F r js ls k st sp Q rs Hm HC HL HX HW. rewrite <- !app_assoc.
  eapply (impl_next _ _ _ _ _ _ _ _ _ _ HA Ea);
    [exact HC|eapply moved_refl; eauto|lia|apply lext_refl; auto|eapply ctx_less; [exact HC|lia]|exact Hm|exact HX|lenl|].
  intros v h ls1 st1 sp1 ws HG HM1 Hm1 HL1. eapply Hrun; [exact HL1|rewrite (lkeep_len _ _ _ (m_ls _ _ _ _ _ _ _ _ HM1)); lenl|].
  intros ls2 HK HV. assert (HM2 := moved_ls' _ _ _ _ _ _ _ _ _ _ HM1 Xa HK).
  eapply (impl_last _ _ _ _ _ _ _ _ _ _ HB Eb);
    [exact HC|exact HM2|lia|exact X2| |exact Hm1|exact HX|lenl|exact HW].
  eapply ctx_bind; [eapply ctx_moved; [exact HC|exact X2|exact HM2|lia]|exact Hlv|exact HV|apply HG|apply HG].
Qed.

Lemma rep_bool m P v ws : rep m P TBool v ws -> exists b, v = CBool b /\ ws = [VI32 (b2z b)].
Proof. destruct v; cbn [rep]; intros H; try contradiction. exists b. auto. Qed.
Lemma rep_opt m P t v ws : rep m P (TOpt t) v ws ->
  (v = CNone /\ exists ws', ws = VI32 0 :: ws' /\ Forall2 wtyped (clar2wasm_ty t) ws') \/
  (exists x, v = CSome x /\ exists ws', ws = VI32 1 :: ws' /\ rep m P t x ws').
Proof. destruct v; cbn [rep]; intros H; try contradiction; eauto. Qed.
Lemma rep_resp m P t u v ws : rep m P (TResp t u) v ws ->
  (exists x, v = COk x /\ exists w1 w2, ws = VI32 1 :: w1 ++ w2 /\ rep m P t x w1 /\ Forall2 wtyped (clar2wasm_ty u) w2) \/
  (exists x, v = CErr x /\ exists w1 w2, ws = VI32 0 :: w1 ++ w2 /\ Forall2 wtyped (clar2wasm_ty t) w1 /\ rep m P u x w2).
Proof. destruct v; cbn [rep]; intros H; try contradiction; eauto 6. Qed.

(** code inside an [if], up to its end *)
Lemma impl_block G t fr c m d B l1 cc l2 : impl G t fr c m -> c (S d) B l1 = (cc, l2) -> forall G0 B0 (F : Z -> Prop) r0 l ls ls1 st st1 sp sp1 n n1,
  ctx G0 B0 r0 F l ls st sp n -> moved l ls st sp n1 ls1 st1 sp1 -> n1 + fr <= n -> lext l l1 ->
  forall r, ctx G B r F l1 ls1 st1 sp1 fr ->
  forall js k nr Q rs, m r (shost st1) = Some rs -> exits rt d F l ls st sp n Q rs -> (llen l2 <= length ls)%nat ->
    (forall v h ls2 st2 sp2 ws, rs = Done v h -> gives F t v h l ls st sp n ls2 st2 sp2 ws -> wp js (mkcfg ls2 (rev ws ++ k) st2) Q) ->
    wp cc (mkcfg ls1 [] st1) (qblock E nr k js Q).
Proof.
  intros HI HC G0 B0 F r0 l ls ls1 st st1 sp sp1 n n1 H0 HM Hn Hx r H1 js k nr Q rs Hb HX HL HW.
  rewrite <- (app_nil_r cc).
  eapply (impl_last _ _ _ _ _ _ _ _ _ _ HI HC); [exact H0|exact HM|exact Hn|exact Hx|exact H1|exact Hb|apply exits_block; exact HX|exact HL|].
  intros v h ls2 st2 sp2 ws Hd HG. apply qb_done. rewrite app_nil_r. eapply HW; eauto.
Qed.

Lemma if_ok G t fa fb fc a b c ma mb mc : impl G TBool fc c mc -> impl G t fa a ma -> impl G t fb b mb ->
  impl G t (fc + fa + fb) (e_if t c a b)
    (fun r => bind (mc r) (fun v => match v with CBool b' => if b' then ma r else mb r | _ => bad end)).
Proof.
  intros HCc HA HB. fr_of HA. fr_of HB. fr_of HCc. split; [lia|].
  intros d B l code l' HC Hw. unfold e_if in HC.
  destruct (a (S d) B l) as [ca l1] eqn:Ea. destruct (b (S d) B l1) as [cb l2] eqn:Eb. destruct (c d B l2) as [cc l3] eqn:Ec. injection HC as <- <-.
  ext_of HA Ea Xa. ext_of HB Eb Xb. ext_of HCc Ec Xc.
  assert (X2 : lext l l2) by (eapply lext_trans; eauto). split; [eapply lext_trans; eauto|].
  intros F r js ls k st sp Q rs Hm HC HL HX HW. rewrite <- !app_assoc.
  eapply (impl_next _ _ _ _ _ _ _ _ _ _ HCc Ec);
    [exact HC|eapply moved_refl; eauto|lia|exact X2|eapply ctx_moved; [exact HC|exact X2|eapply moved_refl; eauto|lia]|exact Hm|exact HX|lenl|].
  intros v h ls1 st1 sp1 ws HG HM1 Hm1 HL1.
  destruct (rep_bool _ _ _ _ (g_rep _ _ _ _ _ _ _ _ _ _ _ _ _ HG)) as (b0 & -> & ->). cbn [rev app]. apply wp_if0.
  destruct b0; cbn [b2z Z.eqb].
  - eapply (impl_block _ _ _ _ _ _ _ _ _ _ HA Ea); [exact HC|exact HM1|lia|apply lext_refl; auto|eapply ctx_moved; [exact HC|apply lext_refl; auto|exact HM1|lia]|exact Hm1|exact HX|lenl|exact HW].
  - eapply (impl_block _ _ _ _ _ _ _ _ _ _ HB Eb); [exact HC|exact HM1|lia|exact Xa|eapply ctx_moved; [exact HC|exact Xa|exact HM1|lia]|exact Hm1|exact HX|lenl|exact HW].
Qed.

(** ** Lists of operands *)
Record sub := mksub { s_t : ty; s_fr : Z; s_c : frag; s_m : venv -> M HS value }.
Definition sub_ok (G : tenv) (s : sub) : Prop := impl G (s_t s) (s_fr s) (s_c s) (s_m s).
Definition sfr (ss : list sub) : Z := fold_right (fun s n => s_fr s + n) 0 ss.
Lemma sfr_nonneg G ss : Forall (sub_ok G) ss -> 0 <= sfr ss.
Proof. induction 1 as [|s ss H Hs IH]; cbn; [lia|]. fr_of H. fold (sfr ss). lia. Qed.

Lemma branches_ext G ss : forall d B l cs l', branches (map s_c ss) d B l = (cs, l') -> Forall (sub_ok G) ss -> lwf l -> lext l l'.
Proof.
  induction ss as [|s ss IH]; intros d B l cs l' H Hs Hw; cbn in H.
  - injection H as <- <-. apply lext_refl; auto.
  - destruct (s_c s d B l) as [c l1] eqn:Ec. destruct (branches (map s_c ss) d B l1) as [cs' l2] eqn:Eb. injection H as <- <-.
    inversion Hs as [|? ? H1 H2]; subst. unfold sub_ok in H1. ext_of H1 Ec Xc. eapply lext_trans; eauto. eapply IH; eauto. eapply lext_wf; eauto.
Qed.

(** ** [and], [or] *)
Definition short_if (stop : bool) (c : list instr) : instr :=
  let noop := [Const (VI32 (if stop then 1 else 0))] in if stop then If 0 1 noop c else If 0 1 c noop.
Lemma short_stopped stop cs js ls k (st : store HS) Q : wp js (mkcfg ls (VI32 (b2z stop) :: k) st) Q ->
  wp (map (short_if stop) cs ++ js) (mkcfg ls (VI32 (b2z stop) :: k) st) Q.
Proof.
  intros HW. induction cs as [|c cs IH]; [exact HW|]. cbn [map app]. unfold short_if at 1. destruct stop; apply wp_if0; cbn [b2z Z.eqb];
    apply wp_const; apply qb_done; exact IH.
Qed.

Lemma short_run stop G B r F l ls st sp n d k js Q rs : ctx G B r F l ls st sp n -> exits rt d F l ls st sp n Q rs ->
  (forall v h ls2 st2 sp2 ws, rs = Done v h -> gives F TBool v h l ls st sp n ls2 st2 sp2 ws -> wp js (mkcfg ls2 (rev ws ++ k) st2) Q) ->
  forall ss l1 cs l2, branches (map s_c ss) (S d) B l1 = (cs, l2) -> Forall (sub_ok G) ss -> Forall (fun s => s_t s = TBool) ss ->
  lext l l1 -> (llen l2 <= length ls)%nat ->
  forall ls1 st1 sp1 n1, moved l ls st sp n1 ls1 st1 sp1 -> n1 + sfr ss <= n ->
    allM stop (map (fun s => s_m s r) ss) (shost st1) = Some rs ->
    wp (map (short_if stop) cs ++ js) (mkcfg ls1 (VI32 (b2z (negb stop)) :: k) st1) Q.
Proof.
  intros HC HX HW. induction ss as [|s ss IH]; intros l1 cs l2 H Hs Hb Xl HL ls1 st1 sp1 n1 HM Hn Hm.
  - cbn in H. injection H as <- <-. cbn in Hm. injection Hm as <-. cbn [map app]. cbn [sfr fold_right] in Hn.
    apply (HW _ _ ls1 st1 sp1 [VI32 (b2z (negb stop))] eq_refl). constructor; [eapply moved_more; eauto; lia|reflexivity|exact I|reflexivity].
  - cbn [map branches] in H. destruct (s_c s (S d) B l1) as [c l3] eqn:Ec. destruct (branches (map s_c ss) (S d) B l3) as [cs' l4] eqn:Eb.
    injection H as <- <-. inversion Hs as [|? ? H1 H2]; subst. inversion Hb as [|? ? H3 H4]; subst. unfold sub_ok in H1. rewrite H3 in H1.
    ext_of H1 Ec Xc. assert (X3 : lext l l3) by (eapply lext_trans; eauto).
    pose proof (branches_ext _ _ _ _ _ _ _ Eb H2 (lext_wf _ _ Xc)) as Xd. fr_of H1. pose proof (sfr_nonneg _ _ H2) as P2.
    cbn [sfr fold_right] in Hn. fold (sfr ss) in Hn.
    assert (HR : wp c (mkcfg ls1 [] st1) (qblock E 1 k (map (short_if stop) cs' ++ js) Q)).
    { rewrite <- (app_nil_r c). cbn [map allM] in Hm.
      eapply (impl_next _ _ _ _ _ _ _ _ _ _ H1 Ec);
        [exact HC|exact HM|lia|exact Xl|eapply ctx_moved; [exact HC|exact Xl|exact HM|lia]|exact Hm|apply exits_block; exact HX|lenl|].
      intros v h ls2 st2 sp2 ws HG HM2 Hm2 _.
      destruct (rep_bool _ _ _ _ (g_rep _ _ _ _ _ _ _ _ _ _ _ _ _ HG)) as (b0 & -> & ->). cbn [rev app]. apply qb_done. cbn [app].
      destruct (Bool.eqb b0 stop) eqn:Hbs.
      - apply Bool.eqb_prop in Hbs. subst b0. injection Hm2 as <-. apply short_stopped.
        apply (HW _ _ ls2 st2 sp2 [VI32 (b2z stop)] eq_refl). constructor; [eapply moved_more; eauto; lia|reflexivity|exact I|reflexivity].
      - assert (b0 = negb stop) by (destruct b0, stop; cbn in *; congruence). subst b0.
        eapply (IH l3 cs' l4 Eb H2 H4 X3 HL ls2 st2 sp2 (n1 + s_fr s)); [exact HM2|lia|exact Hm2]. }
    cbn [map app]. unfold short_if at 1. destruct stop; apply wp_if0; cbn [b2z negb Z.eqb]; exact HR.
Qed.

Lemma short_ok G stop ss : Forall (sub_ok G) ss -> Forall (fun s => s_t s = TBool) ss ->
  impl G TBool (sfr ss) (e_short stop (map s_c ss)) (fun r => allM stop (map (fun s => s_m s r) ss)).
Proof.
  intros Hs Hb. split; [eapply sfr_nonneg; eauto|]. intros d B l code l' HC Hw. unfold e_short in HC.
  destruct (branches (map s_c ss) (S d) B l) as [cs l1] eqn:Eb. injection HC as <- <-.
  pose proof (branches_ext _ _ _ _ _ _ _ Eb Hs Hw) as Xb. split; auto.
  intros F r js ls k st sp Q rs Hm HC HL HX HW. cbn [app]. apply wp_const.
  replace (VI32 (if stop then 0 else 1)) with (VI32 (b2z (negb stop))) by (destruct stop; reflexivity).
  eapply (short_run stop G B r F l ls st sp (sfr ss) d k js Q rs HC HX HW ss l cs l1 Eb Hs Hb (lext_refl _ Hw) HL ls st sp 0);
    [eapply moved_refl; eauto|lia|exact Hm].
Qed.

(** ** Optionals and responses *)
Lemma gives_map F t t' v v' h l ls st sp n ls' st' sp' ws ws' : gives (HS := HS) F t v h l ls st sp n ls' st' sp' ws ->
  (rep (smem st') (vis F sp') t v ws -> rep (smem st') (vis F sp') t' v' ws') -> (has_type t v -> has_type t' v') ->
  gives F t' v' h l ls st sp n ls' st' sp' ws'.
Proof. intros [A1 A2 A3 A4] H1 H2. constructor; auto. Qed.

(** wrapping the result of a fragment *)
Lemma wrap_ok G t t' fr c m (pre post : list val) (w : value -> value) :
  (forall mm P v ws, rep mm P t v ws -> rep mm P t' (w v) (pre ++ ws ++ post)) -> (forall v, has_type t v -> has_type t' (w v)) ->
  impl G t fr c m ->
  impl G t' fr (fun d B l => let '(cc, l) := c d B l in (map Const pre ++ cc ++ map Const post, l)) (fun r => bind (m r) (fun v => ret (w v))).
Proof.
  intros Hr Ht HA. fr_of HA. split; [lia|]. intros d B l code l' HC Hw. destruct (c d B l) as [cc l1] eqn:Ec. injection HC as <- <-.
  ext_of HA Ec Xc. split; auto. intros F r js ls k st sp Q rs Hm HC HL HX HW. rewrite <- !app_assoc.
  assert (HP : forall ws js ls k (st : store HS) Q, wp js (mkcfg ls (rev ws ++ k) st) Q -> wp (map Const ws ++ js) (mkcfg ls k st) Q).
  { clear. induction ws as [|w ws IH]; intros js ls k st Q HW; [exact HW|]. cbn [map app]. apply wp_const. apply IH.
    cbn [rev] in HW. rewrite <- app_assoc in HW. exact HW. }
  apply HP. eapply (impl_next _ _ _ _ _ _ _ _ _ _ HA Ec);
    [exact HC|eapply moved_refl; eauto|lia|apply lext_refl; auto|exact HC|exact Hm|exact HX|lenl|].
  intros v h ls1 st1 sp1 ws HG HM1 Hm1 HL1. injection Hm1 as <-. apply HP.
  replace (rev post ++ rev ws ++ rev pre ++ k) with (rev (pre ++ ws ++ post) ++ k) by (rewrite !rev_app_distr, <- !app_assoc; reflexivity).
  apply (HW (w v) (shost st1) ls1 st1 sp1 _ eq_refl).
  pose proof (g_host _ _ _ _ _ _ _ _ _ _ _ _ _ HG) as ->. eapply gives_map; [exact HG|apply Hr|apply Ht].
Qed.

Lemma some_ok G t fr c m : impl G t fr c m -> impl G (TOpt t) fr (e_some c) (fun r => bind (m r) (fun v => ret (CSome v))).
Proof.
  intros HA. pose proof (wrap_ok G t (TOpt t) fr c m [VI32 1] [] CSome) as HW. cbn [map app] in HW.
  assert (H : impl G (TOpt t) fr (fun d B l => let '(cc, l) := c d B l in (Const (VI32 1) :: cc ++ [], l)) (fun r => bind (m r) (fun v => ret (CSome v)))).
  { apply HW; [|auto|exact HA]. intros mm P v ws Hr. cbn [rep]. exists ws. rewrite app_nil_r. auto. }
  destruct H as (H1 & H2). split; auto. intros d B l code l' HC. apply H2. unfold e_some in HC. destruct (c d B l). rewrite app_nil_r. exact HC.
Qed.
Lemma ok_ok G t u fr c m : impl G t fr c m -> impl G (TResp t u) fr (e_ok c u) (fun r => bind (m r) (fun v => ret (COk v))).
Proof.
  intros HA. pose proof (wrap_ok G t (TResp t u) fr c m [VI32 1] (map zero_of (clar2wasm_ty u)) COk) as HW. cbn [map app] in HW.
  rewrite map_map in HW. apply HW; [|auto|exact HA]. intros mm P v ws Hr. cbn [rep]. exists ws, (map zero_of (clar2wasm_ty u)). split; auto.
  split; auto. apply zeros_typed.
Qed.
Lemma err_ok G t u fr c m : impl G u fr c m -> impl G (TResp t u) fr (e_err t c) (fun r => bind (m r) (fun v => ret (CErr v))).
Proof.
  intros HA. pose proof (wrap_ok G u (TResp t u) fr c m (VI32 0 :: map zero_of (clar2wasm_ty t)) [] CErr) as HW. cbn [map app] in HW.
  rewrite map_map in HW.
  assert (H : impl G (TResp t u) fr (fun d B l => let '(cc, l) := c d B l in (Const (VI32 0) :: placeholders t ++ cc ++ [], l)) (fun r => bind (m r) (fun v => ret (CErr v)))).
  { apply HW; [|auto|exact HA]. intros mm P v ws Hr. cbn [rep]. exists (map zero_of (clar2wasm_ty t)), ws. rewrite app_nil_r. split; auto.
    split; auto. apply zeros_typed. }
  destruct H as (H1 & H2). split; auto. intros d B l code l' HC. apply H2. unfold e_err in HC. destruct (c d B l). rewrite app_nil_r. exact HC.
Qed.

(** ** [match] *)
Lemma match_opt_ok G t ti fc fa fb c x a b mc ma mb : impl G (TOpt ti) fc c mc -> impl ((x, ti) :: G) t fa a ma -> impl G t fb b mb ->
  impl G t (fc + fa + fb) (e_match_opt t ti c x a b)
    (fun r => bind (mc r) (fun v => match v with CSome v => ma ((x, v) :: r) | CNone => mb r | _ => bad end)).
Proof.
  intros HCc HA HB. fr_of HA. fr_of HB. fr_of HCc. split; [lia|].
  intros d B l code l' HC Hw. unfold e_match_opt in HC. destruct (c d B l) as [cc l1] eqn:Ec.
  destruct (save_to_locals ti l1) as [[is cs] l2] eqn:Es.
  destruct (a (S d) ((x, is) :: B) l2) as [ca l3] eqn:Ea. destruct (b (S d) B l3) as [cb l4] eqn:Eb. injection HC as <- <-.
  ext_of HCc Ec Xc. destruct (save_ok E _ _ _ _ _ Es (lext_wf _ _ Xc)) as (Xs & Hlv & _ & Hrun).
  assert (X2 : lext l l2) by (eapply lext_trans; eauto). ext_of HA Ea Xa. assert (X3 : lext l l3) by (eapply lext_trans; eauto).
  ext_of HB Eb Xb. split; [eapply lext_trans; eauto|].
  intros F r js ls k st sp Q rs Hm HC HL HX HW. rewrite <- !app_assoc.
  eapply (impl_next _ _ _ _ _ _ _ _ _ _ HCc Ec);
    [exact HC|eapply moved_refl; eauto|lia|apply lext_refl; auto|eapply ctx_less; [exact HC|lia]|exact Hm|exact HX|lenl|].
  intros v h ls1 st1 sp1 ws HG HM1 Hm1 HL1.
  assert (HLn := lkeep_len _ _ _ (m_ls _ _ _ _ _ _ _ _ HM1)).
  destruct (rep_opt _ _ _ _ _ (g_rep _ _ _ _ _ _ _ _ _ _ _ _ _ HG)) as [(-> & ws' & -> & Ht)|(y & -> & ws' & -> & Hr)].
  - cbn [rev]. rewrite <- app_assoc. eapply Hrun; [symmetry; eapply F2_len; eauto|rewrite HLn; lenl|]. intros ls2 HK HV.
    assert (HM2 := moved_ls' _ _ _ _ _ _ _ _ _ _ HM1 Xc HK). cbn [app]. apply wp_if0. cbn [Z.eqb].
    eapply (impl_block _ _ _ _ _ _ _ _ _ _ HB Eb); [exact HC|exact HM2|lia|exact X3|eapply ctx_moved; [exact HC|exact X3|exact HM2|lia]|exact Hm1|exact HX|lenl|exact HW].
  - cbn [rev]. rewrite <- app_assoc. eapply Hrun; [eapply rep_len; eauto|rewrite HLn; lenl|]. intros ls2 HK HV.
    assert (HM2 := moved_ls' _ _ _ _ _ _ _ _ _ _ HM1 Xc HK). cbn [app]. apply wp_if0. cbn [Z.eqb].
    eapply (impl_block _ _ _ _ _ _ _ _ _ _ HA Ea); [exact HC|exact HM2|lia|exact X2| |exact Hm1|exact HX|lenl|exact HW].
    eapply ctx_bind; [eapply ctx_moved; [exact HC|exact X2|exact HM2|lia]|exact Hlv|exact HV|exact Hr|].
    exact (g_type _ _ _ _ _ _ _ _ _ _ _ _ _ HG).
Qed.

Lemma match_resp_ok G t to te fc fa fb c x a y b mc ma mb : impl G (TResp to te) fc c mc -> impl ((x, to) :: G) t fa a ma -> impl ((y, te) :: G) t fb b mb ->
  impl G t (fc + fa + fb) (e_match_resp t to te c x a y b)
    (fun r => bind (mc r) (fun v => match v with COk v => ma ((x, v) :: r) | CErr v => mb ((y, v) :: r) | _ => bad end)).
Proof.
  intros HCc HA HB. fr_of HA. fr_of HB. fr_of HCc. split; [lia|].
  intros d B l code l' HC Hw. unfold e_match_resp in HC. destruct (c d B l) as [cc l1] eqn:Ec.
  destruct (save_to_locals te l1) as [[es ce] l2] eqn:Ee. destruct (save_to_locals to l2) as [[os co] l3] eqn:Eo.
  destruct (a (S d) ((x, os) :: B) l3) as [ca l4] eqn:Ea. destruct (b (S d) ((y, es) :: B) l4) as [cb l5] eqn:Eb. injection HC as <- <-.
  ext_of HCc Ec Xc. destruct (save_ok E _ _ _ _ _ Ee (lext_wf _ _ Xc)) as (Xs & Hlv & _ & Hrun).
  destruct (save_ok E _ _ _ _ _ Eo (lext_wf _ _ Xs)) as (Xs2 & Hlv2 & _ & Hrun2).
  assert (X2 : lext l l2) by (eapply lext_trans; eauto). assert (X3 : lext l l3) by (eapply lext_trans; eauto).
  ext_of HA Ea Xa. assert (X4 : lext l l4) by (eapply lext_trans; eauto).
  ext_of HB Eb Xb. split; [eapply lext_trans; eauto|].
  intros F r js ls k st sp Q rs Hm HC HL HX HW. rewrite <- !app_assoc.
  eapply (impl_next _ _ _ _ _ _ _ _ _ _ HCc Ec);
    [exact HC|eapply moved_refl; eauto|lia|apply lext_refl; auto|eapply ctx_less; [exact HC|lia]|exact Hm|exact HX|lenl|].
  intros v h ls1 st1 sp1 ws HG HM1 Hm1 HL1.
  assert (HLn := lkeep_len _ _ _ (m_ls _ _ _ _ _ _ _ _ HM1)).
  assert (HSv : forall tag w1 w2 js, length w1 = length (clar2wasm_ty to) -> length w2 = length (clar2wasm_ty te) -> forall Q,
    (forall ls3, moved l ls st sp (0 + fc) ls3 st1 sp1 -> lvals ls3 es w2 -> lvals ls3 os w1 -> wp js (mkcfg ls3 (VI32 tag :: k) st1) Q) ->
    wp (ce ++ co ++ js) (mkcfg ls1 (rev (VI32 tag :: w1 ++ w2) ++ k) st1) Q).
  { intros tag w1 w2 js0 L1 L2 Q0 HW0. cbn [rev]. rewrite rev_app_distr, <- !app_assoc. eapply Hrun; [exact L2|rewrite HLn; lenl|].
    intros ls2 HK HV. eapply Hrun2; [exact L1|rewrite (lkeep_len _ _ _ HK), HLn; lenl|]. intros ls3 HK2 HV2. cbn [app]. apply HW0.
    - eapply moved_ls'; [eapply moved_ls'; [exact HM1|exact Xc|exact HK]|exact X2|exact HK2].
    - eapply lvals_keep; eauto.
    - exact HV2. }
  destruct (rep_resp _ _ _ _ _ _ (g_rep _ _ _ _ _ _ _ _ _ _ _ _ _ HG)) as [(z & -> & w1 & w2 & -> & Hr & Ht)|(z & -> & w1 & w2 & -> & Ht & Hr)].
  - eapply HSv; [eapply rep_len; eauto|symmetry; eapply F2_len; eauto|]. intros ls3 HM3 HV1 HV2. apply wp_if0. cbn [Z.eqb].
    eapply (impl_block _ _ _ _ _ _ _ _ _ _ HA Ea); [exact HC|exact HM3|lia|exact X3| |exact Hm1|exact HX|lenl|exact HW].
    eapply ctx_bind; [eapply ctx_moved; [exact HC|exact X3|exact HM3|lia]|exact Hlv2|exact HV2|exact Hr|].
    exact (g_type _ _ _ _ _ _ _ _ _ _ _ _ _ HG).
  - eapply HSv; [symmetry; eapply F2_len; eauto|eapply rep_len; eauto|]. intros ls3 HM3 HV1 HV2. apply wp_if0. cbn [Z.eqb].
    eapply (impl_block _ _ _ _ _ _ _ _ _ _ HB Eb); [exact HC|exact HM3|lia|exact X4| |exact Hm1|exact HX|lenl|exact HW].
    eapply ctx_bind; [eapply ctx_moved; [exact HC|exact X4|exact HM3|lia]| |exact HV1|exact Hr|exact (g_type _ _ _ _ _ _ _ _ _ _ _ _ _ HG)].
    eapply Forall_impl; [|exact Hlv]. intros i Hi. eapply lext_live; [|exact Hi]. eapply lext_trans; eauto.
Qed.
End Ctl.
