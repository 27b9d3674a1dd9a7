(** * Correctness of emitted expression code: the judgement (proof support)

    [impl G t fr c m]: the fragment [c] computes what the evaluator [m] yields, a
    value of type [t], using at most [fr] bytes of the call stack. *)
From Coq Require Import ZArith String List Bool Lia.
Import ListNotations.
From Verif Require Import Wasm Std StdEnv WasmLogic WasmTac Mem MemFacts Spec Clar Rep RepFacts Emit EmitFacts EmitProofs
  CallProofs Ast SpecLang Lang Typing LangFacts.
Open Scope Z_scope.
Open Scope string_scope.
Open Scope list_scope.

(** addresses below [sp] satisfying [F] *)
Definition vis (F : Z -> Prop) (sp : Z) : Z -> Prop := fun a => a < sp /\ F a.
(** a literal kept in memory *)
Definition held (m : mem) (P : Z -> Prop) (x : ty * value * Z) : Prop :=
  let '(t, v, o) := x in has_type t v /\ rep m P t v [VI32 o; VI32 (lit_len v)].
Definition below (sp : Z) (m m' : mem) : Prop := msize m' = msize m /\ forall a, a < sp -> rd m' a = rd m a.

Lemma below_refl sp m : below sp m m.
Proof. split; auto. Qed.
Lemma below_trans sp sp' a b c : sp <= sp' -> below sp a b -> below sp' b c -> below sp a c.
Proof. intros H (H1 & H2) (H3 & H4). split; [congruence|]. intros x Hx. rewrite H4 by lia. auto. Qed.
Lemma below_weaken sp sp' a b : sp <= sp' -> below sp' a b -> below sp a b.
Proof. intros H (H1 & H2). split; auto. intros x Hx. apply H2. lia. Qed.
Lemma below_only sp m m' a n : only_changes m m' a n -> sp <= a -> below sp m m'.
Proof. intros (H1 & H2) H. split; auto. intros x Hx. apply H2. lia. Qed.

Section Base.
Context {HS : Type} {CH : chain HS} (E : env HS) (rt : ty) (L : list (ty * value * Z)) (X : Z).
Notation wp := (wp E).

Definition bdyn (G : tenv) (B : benv) (r : venv) (m : mem) (P : Z -> Prop) (l : lst) (ls : list val) : Prop :=
  forall x t, assoc x G = Some t -> exists is v ws, assoc x B = Some is /\ Forall (live l) is /\
    assoc x r = Some v /\ lvals ls is ws /\ rep m P t v ws /\ has_type t v.

(** the state in which a fragment runs *)
Record ctx (G : tenv) (B : benv) (r : venv) (F : Z -> Prop) (l : lst) (ls : list val) (st : store HS) (sp n : Z) : Prop := mkctx {
  c_sp : gget (sglob st) "stack-pointer" = Some (VI32 sp);
  c_err : exists w, gget (sglob st) "runtime-error-code" = Some w;
  c_lo : 0 <= sp;
  c_up : forall a, sp <= a -> F a;
  c_lits : Forall (held (smem st) (vis F sp)) L;
  c_room : sp + n + X <= msize (smem st) < m32;
  c_vars : bdyn G B r (smem st) (vis F sp) l ls;
  c_cap : msize (smem st) <= chain_cap (HS := HS) }.

(** what a fragment may change *)
Record moved (l : lst) (ls : list val) (st : store HS) (sp n : Z) (ls' : list val) (st' : store HS) (sp' : Z) : Prop := mkmoved {
  m_ls : lkeep l ls ls';
  m_mem : below sp (smem st) (smem st');
  m_sp : gget (sglob st') "stack-pointer" = Some (VI32 sp');
  m_glob : forall n, n <> "stack-pointer" -> gget (sglob st') n = gget (sglob st) n;
  m_rng : sp <= sp' <= sp + n }.

Record gives (F : Z -> Prop) (t : ty) (v : value) (h : HS) (l : lst) (ls : list val) (st : store HS) (sp n : Z)
  (ls' : list val) (st' : store HS) (sp' : Z) (ws : list val) : Prop := mkgives {
  g_moved : moved l ls st sp n ls' st' sp';
  g_rep : rep (smem st') (vis F sp') t v ws;
  g_type : has_type t v;
  g_host : shost st' = h }.

(** leaving the fragment early or by an error *)
Definition exits {A} (d : nat) (F : Z -> Prop) (l : lst) (ls : list val) (st : store HS) (sp n : Z) (Q : outcome HS -> Prop) (rs : res HS A) : Prop :=
  match rs with
  | Done _ _ => True
  | Early v h => forall ls' st' sp' ws k', gives F rt v h l ls st sp n ls' st' sp' ws -> Q (OBr d (mkcfg ls' (rev ws ++ k') st'))
  | Abort c => (forall st', gget (sglob st') "runtime-error-code" = Some (VI32 c) -> Q (OTrap TUnreachable st')) /\
      (c = err_host -> forall st', Q (OTrap THost st'))
  end.

Definition impl (G : tenv) (t : ty) (fr : Z) (c : frag) (m : venv -> M HS value) : Prop :=
  0 <= fr /\
  forall d B l code l', c d B l = (code, l') -> lwf l -> lext l l' /\
    forall F r js ls k st sp Q rs, m r (shost st) = Some rs -> ctx G B r F l ls st sp fr -> (llen l' <= length ls)%nat ->
      exits d F l ls st sp fr Q rs ->
      (forall v h ls' st' sp' ws, rs = Done v h -> gives F t v h l ls st sp fr ls' st' sp' ws -> wp js (mkcfg ls' (rev ws ++ k) st') Q) ->
      wp (code ++ js) (mkcfg ls k st) Q.

(** ** Structural lemmas *)
Lemma held_frame m m' (P Q : Z -> Prop) x : msize m' = msize m -> (forall a, P a -> rd m' a = rd m a) -> (forall a, P a -> Q a) ->
  held m P x -> held m' Q x.
Proof. destruct x as [[t v] o]. intros H1 H2 H3 (H4 & H5). split; auto. eapply rep_frame; eauto. Qed.

Lemma bdyn_move G B r m m' (P P' : Z -> Prop) l l' ls ls' : bdyn G B r m P l ls -> lext l l' -> lkeep l ls ls' ->
  msize m' = msize m -> (forall a, P a -> rd m' a = rd m a) -> (forall a, P a -> P' a) -> bdyn G B r m' P' l' ls'.
Proof.
  intros H Hx Hk Hs Hm HP x t Hxt. destruct (H x t Hxt) as (is & v & ws & H1 & H2 & H3 & H4 & H5 & H6).
  exists is, v, ws. split; auto. split; [eapply Forall_impl; [|exact H2]; intros a; apply lext_live; auto|]. split; auto.
  split; [eapply lvals_keep; eauto|]. split; auto. eapply rep_frame; eauto.
Qed.

Lemma ctx_move G B r (F F' : Z -> Prop) l l' ls ls' st st' sp sp' n n' : ctx G B r F l ls st sp n -> lext l l' -> lkeep l ls ls' ->
  msize (smem st') = msize (smem st) -> (forall a, vis F sp a -> rd (smem st') a = rd (smem st) a) ->
  (forall a, vis F sp a -> vis F' sp' a) -> (forall a, sp' <= a -> F' a) ->
  gget (sglob st') "stack-pointer" = Some (VI32 sp') ->
  (forall n, n <> "stack-pointer" -> gget (sglob st') n = gget (sglob st) n) -> 0 <= sp' -> sp' + n' <= sp + n ->
  ctx G B r F' l' ls' st' sp' n'.
Proof.
  intros [C1 C0 C2 C3 C4 C5 C6 C7] Hx Hk Hs Hm HV HU Hg Hgl H0 Hn. constructor; auto.
  - rewrite Hgl by discriminate. exact C0.
  - eapply Forall_impl; [|exact C4]. intros x. apply held_frame; auto.
  - lia.
  - eapply bdyn_move; eauto.
  - rewrite Hs. exact C7.
Qed.

(** after running something *)
Lemma ctx_moved G B r (F : Z -> Prop) l l' ls ls' st st' sp sp' n n1 n' : ctx G B r F l ls st sp n -> lext l l' ->
  moved l ls st sp n1 ls' st' sp' -> n1 + n' <= n -> ctx G B r F l' ls' st' sp' n'.
Proof.
  intros HC Hx [M1 (M2 & M3) M4 M6 M5] Hn. eapply ctx_move; eauto.
  - intros a (Ha & _). auto.
  - intros a (Ha & HF). split; auto. lia.
  - intros a Ha. eapply c_up; eauto. lia.
  - destruct HC. lia.
  - lia.
Qed.
Lemma ctx_less G B r F l ls st sp n n' : ctx G B r F l ls st sp n -> n' <= n -> ctx G B r F l ls st sp n'.
Proof. intros [C1 C0 C2 C3 C4 C5 C6 C7] Hn. constructor; auto. lia. Qed.

Lemma moved_trans l l1 ls ls1 ls2 st st1 st2 sp sp1 sp2 n1 n2 : lext l l1 ->
  moved l ls st sp n1 ls1 st1 sp1 -> moved l1 ls1 st1 sp1 n2 ls2 st2 sp2 -> moved l ls st sp (n1 + n2) ls2 st2 sp2.
Proof.
  intros Hx [A1 A2 A3 A5 A4] [B1 B2 B3 B5 B4]. constructor.
  - eapply lkeep_trans; eauto.
  - eapply below_trans; [|exact A2|exact B2]. lia.
  - exact B3.
  - intros n Hn. rewrite B5, A5; auto.
  - lia.
Qed.
Lemma moved_more l ls st sp n n' ls' st' sp' : moved l ls st sp n ls' st' sp' -> n <= n' -> moved l ls st sp n' ls' st' sp'.
Proof. intros [A1 A2 A3 A5 A4] H. constructor; auto. lia. Qed.
Lemma moved_refl G B r F l ls st sp n : ctx G B r F l ls st sp n -> moved l ls st sp 0 ls st sp.
Proof. intros HC. constructor; [apply lkeep_refl|apply below_refl|eapply c_sp; eauto|auto|lia]. Qed.
(** locals set without touching live ones *)
Lemma moved_ls l ls st sp n ls1 st1 sp1 ls2 : moved l ls st sp n ls1 st1 sp1 -> lkeep l ls1 ls2 -> moved l ls st sp n ls2 st1 sp1.
Proof. intros [A1 A2 A3 A5 A4] H. constructor; auto. eapply lkeep_trans0; eauto. Qed.
Lemma moved_ls' l l1 ls st sp n ls1 st1 sp1 ls2 : moved l ls st sp n ls1 st1 sp1 -> lext l l1 -> lkeep l1 ls1 ls2 -> moved l ls st sp n ls2 st1 sp1.
Proof. intros A B C. eapply moved_ls; eauto. eapply lkeep_weaken; eauto. Qed.

(** a value seen before something ran is still represented *)
Lemma rep_moved (F : Z -> Prop) l ls st sp n ls' st' sp' t v ws : moved l ls st sp n ls' st' sp' ->
  rep (smem st) (vis F sp) t v ws -> rep (smem st') (vis F sp') t v ws.
Proof.
  intros [A1 (A2 & A2') A3 A5 A4] H. eapply rep_frame; [exact A2| | |exact H].
  - intros a (Ha & _). auto.
  - intros a (Ha & HF). split; auto. lia.
Qed.

Lemma exits_block {A} d F l ls st sp n Q (rs : res HS A) nr rest is :
  exits d F l ls st sp n Q rs -> exits (S d) F l ls st sp n (qblock E nr rest is Q) rs.
Proof. destruct rs; cbn [exits]; auto. Qed.

Lemma exits_sub {A B} d (F F1 : Z -> Prop) l l1 ls ls1 st st1 sp sp1 n n1 n2 Q (rs : res HS A) (rs' : res HS B) :
  exits d F l ls st sp n Q rs -> lext l l1 -> moved l ls st sp n1 ls1 st1 sp1 -> n1 + n2 <= n -> (forall a, F1 a -> F a) ->
  match rs' with Done _ _ => True | Early v h => rs = Early v h | Abort c => rs = Abort c end ->
  exits d F1 l1 ls1 st1 sp1 n2 Q rs'.
Proof.
  intros HX Hx HM Hn HF Hr. destruct rs' as [a h|v h|c]; cbn [exits] in *; auto; subst rs; cbn [exits] in HX.
  - intros ls' st' sp' ws k' [A1 A2 A3 A4]. apply HX with (sp' := sp'). constructor; auto.
    + eapply moved_more; [eapply moved_trans; eauto|lia].
    + eapply rep_weaken; [|exact A2]. intros x (H1 & H2). split; auto.
  - auto.
Qed.

(** running a sub-fragment in sequence *)
Lemma impl_run {A} G t fr c m d B l1 cc l2 :
  impl G t fr c m -> c d B l1 = (cc, l2) -> lwf l1 -> 
  forall (f : value -> M HS A) (F F1 : Z -> Prop) r js l ls ls1 k st st1 sp sp1 n n1 Q rs, bind (m r) f (shost st1) = Some rs ->
    lext l l1 -> moved l ls st sp n1 ls1 st1 sp1 -> n1 + fr <= n -> (forall a, F1 a -> F a) ->
    ctx G B r F1 l1 ls1 st1 sp1 fr -> (llen l2 <= length ls)%nat ->
    exits d F l ls st sp n Q rs ->
    (forall v h ls2 st2 sp2 ws, gives F1 t v h l1 ls1 st1 sp1 fr ls2 st2 sp2 ws -> moved l ls st sp (n1 + fr) ls2 st2 sp2 ->
       f v h = Some rs -> wp js (mkcfg ls2 (rev ws ++ k) st2) Q) ->
    wp (cc ++ js) (mkcfg ls1 k st1) Q.
Proof.
  intros (Hfr & HI) HC Hw f F F1 r js l ls ls1 k st st1 sp sp1 n n1 Q rs Hb Hx HM Hn HF HCtx HL HX HW.
  destruct (HI _ _ _ _ _ HC Hw) as (Hx2 & Hrun). unfold bind in Hb. destruct (m r (shost st1)) as [rs'|] eqn:Hm; [|discriminate].
  eapply Hrun; eauto.
  - rewrite (lkeep_len _ _ _ (m_ls _ _ _ _ _ _ _ _ HM)). exact HL.
  - eapply (exits_sub d F F1 l l1 ls ls1 st st1 sp sp1 n n1 fr Q rs rs' HX Hx HM Hn HF).
    destruct rs'; auto; congruence.
  - intros v h ls' st' sp' ws -> HG. eapply HW; eauto. eapply moved_trans; eauto. apply HG.
Qed.

(** ... in the simplest situation: same [F], the fragment's own frame *)
Lemma impl_widen G t t' fr c m : impl G t fr c m -> widens t t' = true -> impl G t' fr c m.
Proof.
  intros (Hfr & HI) Hw. split; auto. intros d B l code l' HC Hl. destruct (HI _ _ _ _ _ HC Hl) as (Hx & Hrun). split; auto.
  intros F r js ls k st sp Q rs Hm HCtx HL HX HW. eapply Hrun; eauto. intros v h ls' st' sp' ws Hd [A1 A2 A3 A4].
  apply (HW v h ls' st' sp' ws Hd). constructor; [exact A1|eapply widens_rep; eauto|eapply widens_has_type; eauto|exact A4].
Qed.
End Base.
