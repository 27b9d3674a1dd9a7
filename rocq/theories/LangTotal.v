(** * The reference evaluator is defined and type-correct on well-typed programs (proof support) *)
From Coq Require Import ZArith String List Bool Lia.
Import ListNotations.
From Verif Require Import Wasm StdEnv WasmTac Mem Bytes Spec SpecBytes SpecUtf8 Clar Rep RepFacts Equal Ast SpecLang Lang Typing LangFacts
  LangConcat LangTuple LangArith LangWord LangSlice LangLaid LangIndex LangMain LangPlain.
Open Scope string_scope.
Open Scope list_scope.
Open Scope Z_scope.

Section Total.
Context {HS : Type} {CH : chain HS} {KT : Type} (rt : ty) (Inv : KT -> HS -> Prop).

(** [m] yields something: a value satisfying [P], an early return of the function's type, or an abort *)
Definition tot {A} (m : M HS A) (P : A -> Prop) : Prop := forall k h, Inv k h -> exists rs, m h = Some rs /\
  match rs with Done a h' => P a /\ Inv k h' | Early v h' => has_type rt v /\ Inv k h' | Abort _ => True end.
(** the host always serves a word with a value of its type and keeps [Inv]; it opens
    scopes, and closes them after anything that keeps [Inv] *)
Definition served (u : use) : Prop :=
  match u with
  | UPrim p => forall vs k h, Inv k h -> Forall2 has_type (prim_args p) vs -> exists rs, chain_op p vs h = Some rs /\
      match rs with Done v h' => has_type (prim_ret p) v /\ Inv k h' | Early _ _ => False | Abort _ => True end
  | UScope s => forall k h, Inv k h -> exists k' h1, chain_open s h = Some h1 /\ Inv k' h1 /\
      forall keep h2, Inv k' h2 -> exists h3, chain_close s keep h2 = Some h3 /\ Inv k h3
  end.
Lemma tot_ret {A} (a : A) (P : A -> Prop) : P a -> tot (ret a) P.
Proof. intros H k h Hi. eexists. split; [reflexivity|split; [exact H|exact Hi]]. Qed.
Lemma tot_abort {A} c (P : A -> Prop) : tot (abort c) P.
Proof. intros k h _. eexists. split; [reflexivity|exact I]. Qed.
Lemma tot_early {A} v (P : A -> Prop) : has_type rt v -> tot (early v) P.
Proof. intros H k h Hi. eexists. split; [reflexivity|split; [exact H|exact Hi]]. Qed.
Lemma tot_bind {A B} (m : M HS A) (f : A -> M HS B) (P : A -> Prop) Q : tot m P -> (forall a, P a -> tot (f a) Q) -> tot (bind m f) Q.
Proof.
  intros Hm Hf k h Hi. destruct (Hm k h Hi) as (rs & E & H). unfold bind. rewrite E. destruct rs as [a h'|v h'|c]; [destruct H as (H & H'); exact (Hf _ H k _ H')| |]; eexists; (split; [reflexivity|exact H]).
Qed.
Lemma tot_mono {A} (m : M HS A) (P Q : A -> Prop) : tot m P -> (forall a, P a -> Q a) -> tot m Q.
Proof. intros Hm H k h Hi. destruct (Hm k h Hi) as (rs & E & HR). exists rs. split; auto. destruct rs; auto. destruct HR; auto. Qed.
Lemma tot_opt {A} (o : option A) (P : A -> Prop) : (exists a, o = Some a /\ P a) -> tot (of_opt o) P.
Proof. intros (a & -> & H). apply tot_ret. exact H. Qed.
Lemma tot_sum o (P : value -> Prop) : (forall v, o = inl v -> P v) -> tot (of_sum o) P.
Proof. destruct o; intros H; [apply tot_ret; auto|apply tot_abort]. Qed.
Lemma tot_unless {A} s b (m : M HS A) P : tot m P -> (s = true -> forall k h, Inv k h -> b h = false) -> tot (unless s b m) P.
Proof. intros H Hb k h Hi. unfold unless. destruct s; [rewrite (Hb eq_refl k h Hi)|]; apply (H k h Hi). Qed.
Lemma tot_mapM {A} (ms : list (M HS A)) Ps : Forall2 tot ms Ps -> tot (mapM ms) (fun vs => Forall2 (fun v (P : A -> Prop) => P v) vs Ps).
Proof.
  induction 1; cbn [mapM]; [apply tot_ret; constructor|]. eapply tot_bind; [exact H|]. intros v Hv. eapply tot_bind; [exact IHForall2|]. intros vs Hvs.
  apply tot_ret. constructor; auto.
Qed.
Lemma tot_allM stop (ms : list (M HS value)) : Forall (fun m => tot m (has_type TBool)) ms -> tot (allM stop ms) (has_type TBool).
Proof.
  induction 1; cbn [allM]; [apply tot_ret; exact I|]. eapply tot_bind; [exact H|]. intros v Hv. destruct v; try contradiction.
  destruct (Bool.eqb b stop); [apply tot_ret; exact I|exact IHForall].
Qed.

Lemma type_num_of t v : is_num t = true -> has_type t v -> exists z, v = num t z /\ in_range t z /\ num_of t v = Some z.
Proof. intros Ht Hv. destruct t; try discriminate; destruct v; try contradiction; eexists; (split; [reflexivity|split; [exact Hv|reflexivity]]). Qed.
Lemma exact_type t z c v : is_num t = true -> exact t z c = inl v -> has_type t v.
Proof.
  intros Ht. unfold exact. destruct (fitsb t z) eqn:Ef; [|discriminate]. injection 1 as <-. apply type_num; [exact Ht|]. apply fitsb_range; auto.
Qed.
Lemma arith2_type o t a b v : is_num t = true -> arith2 o t a b = inl v -> has_type t v.
Proof. intros Ht. destruct o; cbn [arith2]; try (apply exact_type; exact Ht). destruct (b =? 0); [discriminate|apply exact_type; exact Ht]. Qed.
Lemma tot_foldA o t vs : is_num t = true -> Forall (has_type t) vs -> forall v, has_type t v -> tot (foldA o t v vs) (has_type t).
Proof.
  intros Ht H. induction H as [|x vs Hx H IH]; intros v Hv; cbn [foldA]; [apply tot_ret; exact Hv|].
  destruct (type_num_of _ _ Ht Hv) as (a & _ & _ & ->). destruct (type_num_of _ _ Ht Hx) as (b & _ & _ & ->).
  eapply tot_bind; [|exact IH]. apply tot_sum. intros w. apply arith2_type. exact Ht.
Qed.
Lemma tot_arithM o t v vs : is_num t = true -> has_type t v -> Forall (has_type t) vs -> tot (arithM o t v vs) (has_type t).
Proof.
  intros Ht Hv H. destruct vs as [|x vs]; cbn [arithM]; [|apply tot_foldA; auto].
  destruct (type_num_of _ _ Ht Hv) as (a & -> & Ha & ->). apply tot_sum. intros w Hw. destruct o; cbn [arith1] in Hw; try (injection Hw as <-; apply type_num; auto).
  eapply exact_type; eauto.
Qed.

Lemma folded_type f t vs : bitop f -> is_num t = true -> vs <> [] -> Forall (has_type t) vs -> exists v, folded f vs = Some (inl v) /\ has_type t v.
Proof.
  intros Hf Ht. destruct vs as [|a vs]; [congruence|]. intros _ H. inversion H as [|? ? Ha Hvs]; subst. clear H. cbn [folded].
  revert a Ha. induction Hvs as [|x vs Hx Hvs IH]; intros a Ha; cbn [bits_all]; [eexists; split; [reflexivity|exact Ha]|].
  destruct (type_num_of _ _ Ht Ha) as (z & -> & Hz & _). destruct (type_num_of _ _ Ht Hx) as (y & -> & Hy & _).
  assert (Hb : bits f (num t z) (num t y) = Some (num t (f z y))) by (destruct t; try discriminate; reflexivity). rewrite Hb.
  apply IH. apply type_num; auto. apply bit_range; auto.
Qed.
Lemma widens_num_type a t v : is_num t = true -> widens a t = true -> has_type a v -> has_type t v.
Proof. intros H1 H2. rewrite (widens_num _ _ H1 H2). auto. Qed.
Lemma F2_widens t ts vs : forallb (fun b => widens b t) ts = true -> Forall2 has_type ts vs -> Forall (has_type t) vs.
Proof. intros H H2. induction H2; cbn in H; constructor; apply andb_prop in H as (P1 & P2); auto. eapply widens_has_type; eauto. Qed.

Lemma inl_inj (v x : value) : @inl value Z v = inl x -> x = v.
Proof. congruence. Qed.
Lemma word_total w t ts vs : wt_word w t ts = true -> Forall2 has_type ts vs -> exists x, word_sem w vs = Some x /\ forall v, x = inl v -> has_type t v.
Proof.
  intros Hw Hv.
  assert (Hbits : forall f, bitop f -> word_sem w vs = folded f vs -> (forall a ts', ts = a :: ts' -> is_num t && widens a t && forallb (fun b => widens b t) ts' = true) -> ts <> [] ->
    exists x, word_sem w vs = Some x /\ forall v, x = inl v -> has_type t v).
  { intros f Hf He Hall Hne. rewrite He. destruct ts as [|a ts']; [congruence|]. specialize (Hall a ts' eq_refl). apply andb_prop in Hall as (H1 & H3). apply andb_prop in H1 as (H1 & H2).
    inversion Hv as [|? x ? vs' V1 V2]; subst.
    destruct (folded_type f t (x :: vs') Hf H1 ltac:(discriminate)) as (v & E1 & E2). { constructor; [eapply widens_has_type; eauto|eapply F2_widens; eauto]. }
    exists (inl v). split; [exact E1|]. congruence. }
  destruct w; cbn [wt_word] in Hw;
    try (eapply Hbits; [left; reflexivity|reflexivity|intros a ts' ->; exact Hw|destruct ts; [discriminate|congruence]]; fail);
    try (eapply Hbits; [right; left; reflexivity|reflexivity|intros a ts' ->; exact Hw|destruct ts; [discriminate|congruence]]; fail);
    try (eapply Hbits; [right; right; reflexivity|reflexivity|intros a ts' ->; exact Hw|destruct ts; [discriminate|congruence]]; fail);
    clear Hbits.
  all: destruct ts as [|a [|b [|? ?]]]; try discriminate; repeat match goal with H : Forall2 _ (_ :: _) _ |- _ => inversion H; subst; clear H | H : Forall2 _ [] _ |- _ => inversion H; subst; clear H end.
  all: repeat match goal with H : _ && _ = true |- _ => apply andb_prop in H as (? & ?) end.
  all: repeat match goal with H : is_bool ?t = true |- _ => destruct t; try discriminate; clear H | H : is_uint ?t = true |- _ => destruct t; try discriminate; clear H end.
  all: try match goal with H : is_num ?t = true |- _ => destruct t; try discriminate; repeat match goal with W : widens ?a _ = true |- _ => apply widens_num in W; [subst a|reflexivity] end end.
  all: try match goal with H : match ?a with TInt => _ | _ => _ end = true |- _ => destruct a; try discriminate end.
  all: try match goal with H : match ?a with TInt => _ | _ => _ end = true |- _ => destruct a; try discriminate end.
  all: try match goal with H : is_uint ?t = true |- _ => destruct t; try discriminate; clear H end.
  all: repeat match goal with H : has_type _ ?v |- _ => is_var v; destruct v; try contradiction; cbn [has_type] in H end.
  all: cbn [word_sem ltv boolv option_map]; eexists; (split; [reflexivity|]).
  all: intros v; repeat match goal with |- context [if ?c then _ else _] => destruct c eqn:? end;
    match goal with |- inr _ = _ -> _ => discriminate | |- exact _ _ _ = _ -> _ => apply exact_type; reflexivity | |- _ => intros Hx; apply inl_inj in Hx; subst v end;
    try exact I; cbn [has_type].
  all: repeat match goal with H : (_ =? _) = false |- _ => apply Z.eqb_neq in H | H : (_ <? _) = true |- _ => apply Z.ltb_lt in H
    | H : (_ <? _) = false |- _ => apply Z.ltb_ge in H | H : (_ <=? _) = true |- _ => apply Z.leb_le in H | H : (_ <=? _) = false |- _ => apply Z.leb_gt in H end.
  - apply rem_range; assumption.
  - pose proof (Z.mod_pos_bound z0 z ltac:(lia)). lia.
  - assumption.
  - pose proof (log2_range z ltac:(lia)). lia.
  - pose proof (log2_range z ltac:(lia)). lia.
  - pose proof (sqrt_range z ltac:(lia)). lia.
  - pose proof (sqrt_range z ltac:(lia)). lia.
  - apply (bit_range Z.lxor TInt); [right; right; reflexivity|reflexivity|assumption|assumption].
  - apply (bit_range Z.lxor TUInt); [right; right; reflexivity|reflexivity|assumption|assumption].
  - lia.
  - lia.
  - apply wrap128_range.
  - apply Z.mod_pos_bound. lia.
  - apply shr_range_i; [apply Z.mod_pos_bound; lia|assumption].
  - apply shr_range_u; [apply Z.mod_pos_bound; lia|assumption].
  - lia.
  - lia.
Qed.

Lemma word_fine w t ts vs : good_word w t = true -> wt_word w t ts = true -> Forall2 has_type ts vs -> word_wrong w vs = false.
Proof.
  intros Hg Hw Hv. destruct w; try reflexivity. cbn [wt_word good_word] in *. inversion Hv as [|a x ? ? T1 V1]; subst; try discriminate. inversion V1 as [|b y ? ? T2 V2]; subst; try discriminate.
  inversion V2; subst; [|discriminate]. destruct x; try reflexivity. repeat match goal with H : _ && _ = true |- _ => apply andb_prop in H as (? & ?) end. destruct t; try discriminate.
  repeat match goal with W : widens ?a _ = true |- _ => apply widens_num in W; [subst a|reflexivity] end. contradiction.
Qed.

(** tuples built field by field *)
Lemma build_fields (look : string -> option value) ts : (forall k t, In (k, t) ts -> exists v, look k = Some v /\ has_type t v) ->
  exists lv, fold_right (fun (f : string * ty) o => match look (fst f), o with Some v, Some l => Some ((fst f, v) :: l) | _, _ => None end) (Some []) ts = Some lv /\ fields_typed ts lv.
Proof.
  induction ts as [|[k t] ts IH]; intros H; cbn [fold_right fst]; [exists []; split; [reflexivity|exact I]|].
  destruct (H k t (or_introl eq_refl)) as (v & -> & Hv). destruct IH as (lv & -> & Hl); [intros; apply H; right; assumption|].
  exists ((k, v) :: lv). split; [reflexivity|]. cbn [fields_typed]. auto.
Qed.
Lemma nth_type t v i x : is_seq t = true -> has_type t v -> seq_nth v i = Some x -> has_type (elem_ty t) x.
Proof.
  intros Ht Hv Hn. unfold seq_nth in Hn. destruct (i <? seq_len v); [|discriminate].
  destruct t; try discriminate; destruct v; try contradiction; cbn [has_type elem_ty] in *; destruct Hv as (_ & Hv).
  1-3: destruct (nth_error _ _) as [y|] eqn:En; [|discriminate]; injection Hn as <-; apply nth_error_In in En; rewrite Forall_forall in Hv; cbn [has_type length];
    split; [lia|]; constructor; [apply Hv; exact En|constructor].
  apply nth_error_In in Hn. rewrite Forall_forall in Hv. apply Hv. exact Hn.
Qed.

Definition envt (G : tenv) (r : venv) : Prop := forall x t, assoc x G = Some t -> exists v, assoc x r = Some v /\ has_type t v.
Lemma envt_cons G r x t v : envt G r -> has_type t v -> envt ((x, t) :: G) ((x, v) :: r).
Proof. intros H Hv y u. cbn [assoc]. destruct (String.eqb x y); [|apply H]. injection 1 as <-. exists v. auto. Qed.

Lemma tot_mapM1 {A} (P : A -> Prop) (ms : list (M HS A)) : Forall (fun m => tot m P) ms -> tot (mapM ms) (Forall P).
Proof.
  induction 1; cbn [mapM]; [apply tot_ret; constructor|]. eapply tot_bind; [exact H|]. intros v Hv. eapply tot_bind; [exact IHForall|]. intros vs Hvs.
  apply tot_ret. constructor; auto.
Qed.

Lemma done_mapM {A} (P : A -> Prop) (ms : list (M HS A)) k h : Inv k h -> Forall (fun m => tot m P) ms -> Forall never ms -> done (mapM ms) h = true.
Proof.
  intros Hi H1 H2. destruct (tot_mapM1 P ms H1 k h Hi) as (rs & E & _). destruct (never_mapM _ H2 _ _ E) as (a & h' & ->). unfold done. rewrite E. reflexivity.
Qed.
Lemma foldA_okP o t : (forall a b, wrong2 o t a b = false) -> forall (ms : list (M HS value)) v k h, Inv k h -> Forall (fun m => tot m (has_type t)) ms -> Forall never (tl ms) ->
  foldA_ok o t v ms h = true.
Proof.
  intros Hw. induction ms as [|m ms IH]; intros v k h Hi H1 H2; [reflexivity|]. inversion H1 as [|? ? Hm0 Hms]; subst. cbn [foldA_ok tl] in *. destruct (Hm0 k h Hi) as (rs0 & E0 & K0). rewrite E0. destruct rs0 as [x h'| |]; try reflexivity. destruct K0 as (_ & Hi').
  destruct (num_of t v) as [a|]; [|reflexivity]. destruct (num_of t x) as [b|]; [|reflexivity]. rewrite Hw. cbn [negb andb].
  destruct (arith2 o t a b); [apply (IH _ k); [assumption|assumption|destruct ms; [constructor|inversion H2; assumption]]|]. eapply done_mapM; eassumption.
Qed.

Lemma tot_both {A} (m : M HS A) (P Q : A -> Prop) : tot m P -> (forall h a h', m h = Some (Done a h') -> Q a) -> tot m (fun a => P a /\ Q a).
Proof. intros H HQ k h Hi. destruct (H k h Hi) as (rs & E & K). exists rs. split; [exact E|]. destruct rs; auto. destruct K as (K & K'). split; [split; [exact K|eapply HQ; exact E]|exact K']. Qed.
Lemma tot_scoped strict s (m : M HS value) P : served (UScope s) -> tot m P -> (strict = true -> forall k h v h', Inv k h -> m h <> Some (Early v h')) -> tot (scoped strict s m) P.
Proof.
  intros Hs Hm Hn k h Hi. destruct (Hs k h Hi) as (k' & h1 & Ho & Hi1 & Hc). unfold scoped. rewrite Ho. destruct (Hm k' h1 Hi1) as (rs & E & Hr). rewrite E.
  destruct rs as [v h2|v h2|c]; [| |eexists; split; [reflexivity|exact I]]; destruct Hr as (Hv & Hi2).
  - destruct (Hc (is_ok v) h2 Hi2) as (h3 & -> & Hi3). eexists. split; [reflexivity|]. split; assumption.
  - destruct strict; [exfalso; exact (Hn eq_refl _ _ _ _ Hi1 E)|]. destruct (Hc (is_ok v) h2 Hi2) as (h3 & -> & Hi3). eexists. split; [reflexivity|]. split; assumption.
Qed.
End Total.

(** whatever stays in the function is well typed for any declared value *)
Lemma stays_wt sig rt rt' e : stays e = true -> forall G, wt sig rt G e = true -> wt sig rt' G e = true.
Proof.
  induction e using expr_ind'; cbn [stays]; intros Hs G Hw; try discriminate; cbn [wt] in *; try exact Hw;
    repeat match goal with H : _ && _ = true |- _ => apply andb_prop in H as (? & ?) end;
    repeat match goal with |- _ && _ = true => apply andb_true_intro; split end; auto.
  all: try (repeat match goal with |- context [match ty_of ?a with _ => _ end] => destruct (ty_of a); try discriminate end;
    repeat match goal with H : _ && _ = true |- _ => apply andb_prop in H as (? & ?) end;
    repeat match goal with |- _ && _ = true => apply andb_true_intro; split end; auto; fail).
  all: try (destruct (assoc f sig) as [[ts tr]|]; [|discriminate];
    repeat match goal with H : _ && _ = true |- _ => apply andb_prop in H as (? & ?) end; repeat match goal with |- _ && _ = true => apply andb_true_intro; split end; auto).
  all: match goal with HH : Forall _ ?l |- forallb _ ?l = true =>
      repeat match goal with B : forallb _ l = true |- _ => revert B end; clear - HH; induction HH as [|e0 es0 He HH IH] end; cbn [forallb]; intros; [reflexivity|];
    repeat match goal with H : _ && _ = true |- _ => apply andb_prop in H as (? & ?) end; repeat match goal with |- _ && _ = true => apply andb_true_intro; split end; auto.
  destruct (assoc (fst e0) ts); [|discriminate]. repeat match goal with H : _ && _ = true |- _ => apply andb_prop in H as (? & ?) end; apply andb_true_intro; split; auto.
Qed.

Section Eval.
Context {HS : Type} {CH : chain HS} {KT : Type} (Inv : KT -> HS -> Prop).
Variables (strict : bool) (sig : list (string * fsig)) (funs : string -> list value -> M HS value).
Hypothesis Hfuns : forall rt f ts tr vs, assoc f sig = Some (ts, tr) -> Forall2 has_type ts vs -> tot rt Inv (funs f vs) (has_type tr).
Hypothesis Hleave : forall f vs h v h', funs f vs h <> Some (Early v h').

Definition tgood (e : expr) : Prop := forall rt G r, wt sig rt G e = true -> plain_if strict e = true -> Forall (fun l => has_type (fst (fst l)) (snd (fst l))) (lits e) -> envt G r -> Forall (served Inv) (uses e) ->
  tot rt Inv (eval strict funs e r) (has_type (ty_of e)).

Lemma tgoods rt G r t es (p : expr -> bool) : Forall tgood es -> (forall e, p e = true -> widens (ty_of e) t = true) ->
  forallb (fun e => wt sig rt G e && p e) es = true -> forallb (plain_if strict) es = true -> Forall (fun l => has_type (fst (fst l)) (snd (fst l))) (flat_map lits es) -> envt G r -> Forall (served Inv) (flat_map uses es) ->
  Forall (fun m => tot rt Inv m (has_type t)) (map (fun e => eval strict funs e r) es).
Proof.
  intros H Hp HW HP HL He HV. induction H as [|e es Hg H IH]; cbn [map forallb flat_map] in *; constructor; apply andb_prop in HW as (H1 & H2); apply andb_prop in H1 as (H1 & H3); apply andb_prop in HP as (P1 & P2); apply Forall_app in HL as (L1 & L2); apply Forall_app in HV as (V1 & V2); auto.
  eapply tot_mono; [eapply Hg; eauto|]. intros v. apply widens_has_type. auto.
Qed.

Lemma bools_total any vs : Forall (has_type TBool) vs -> exists b, bools any vs = Some b.
Proof.
  induction 1 as [|v vs Hv H IH]; cbn [bools]; [eexists; reflexivity|]. destruct v; try contradiction. destruct IH as (c & ->). eexists; reflexivity.
Qed.
Lemma widen_types ts ps vs : (length ts =? length ps)%nat = true -> forallb (fun p => widens (fst p) (snd p)) (combine ts ps) = true -> Forall2 has_type ts vs -> Forall2 has_type ps vs.
Proof.
  intros Hl Hw H. apply Nat.eqb_eq in Hl. revert ps Hl Hw. induction H as [|t v ts vs Hv H IH]; intros [|p ps] Hl Hw; try discriminate; [constructor|].
  cbn [combine forallb fst snd length] in *. apply andb_prop in Hw as (W1 & W2). constructor; [eapply widens_has_type; eauto|]. apply IH; [congruence|exact W2].
Qed.
Lemma bool_types ts vs : forallb is_bool ts = true -> Forall2 has_type ts vs -> Forall (has_type TBool) vs.
Proof.
  intros H H2. induction H2 as [|t v ts vs Hv H2 IH]; cbn [forallb] in H; constructor; apply andb_prop in H as (P1 & P2); auto.
  rewrite <- (is_bool_eq t P1). exact Hv.
Qed.
Lemma apply_total rt g t ts vs : wt_fn sig g t ts = true -> negb strict || good_map g t (length ts) = true -> Forall2 has_type ts vs -> Forall (served Inv) (fn_uses g) ->
  tot rt Inv (apply_fn strict funs g t vs) (has_type t).
Proof.
  intros Hw Hg HF HV.
  destruct g as [kd f|w|o|any]; cbn [wt_fn apply_fn good_map good_fn] in *.
  - destruct (assoc f sig) as [[ps tr]|] eqn:Ef; [|discriminate]. repeat match goal with H : _ && _ = true |- _ => apply andb_prop in H as (? & ?) end.
    eapply tot_mono with (P := has_type tr); [|intros v; apply widens_has_type; assumption].
    assert (Kf : tot rt Inv (funs f vs) (has_type tr)) by (eapply Hfuns; [exact Ef|eapply widen_types; eassumption]).
    unfold called_as, fn_uses, kind_uses in *. destruct (kind_scope kd) as [s|]; [|exact Kf].
    inversion HV; subst. apply tot_scoped; [assumption|exact Kf|]. intros _ k0 h v h' _. apply Hleave.
  - apply tot_unless; [|intros Hs ? ? _; rewrite Hs in Hg; cbn [negb orb] in Hg; eapply word_fine; eassumption].
    destruct (word_total w t _ _ Hw HF) as (z & Hz & Hty). eapply tot_bind; [apply (tot_opt _ _ _ (fun y => y = z)); exists z; auto|].
    intros z' ->. apply tot_sum. exact Hty.
  - apply andb_prop in Hw as (Hw & Hne). apply andb_prop in Hw as (Hn & Hw). pose proof (F2_widens _ _ _ Hw HF) as HT.
    destruct vs as [|v vs]; [inversion HF; subst; discriminate|]. inversion HT as [|? ? Hv HT']; subst. inversion HF as [|t0 ? ts' ? _ HF']; subst. clear HF.
    apply tot_unless; [apply tot_arithM; auto|]. intros Hs k h Hih. rewrite Hs in Hg. cbn [negb orb length] in Hg. rewrite Nat.sub_succ, Nat.sub_0_r in Hg. apply negb_false_iff. unfold arith_ok.
    destruct vs as [|x vs]; cbn [map].
    + inversion HF'; subst. cbn [length] in Hg. destruct (num_of t v); [|reflexivity]. destruct o, t; try reflexivity; discriminate.
    + inversion HF'; subst. cbn [length] in Hg. eapply (foldA_okP rt Inv); [|exact Hih| |].
      * intros c d. destruct o, t; try reflexivity; discriminate.
      * change (ret x :: map ret vs) with (map (@ret HS value) (x :: vs)). clear - HT'. induction HT'; constructor; [apply tot_ret; assumption|assumption].
      * cbn [tl]. apply Forall_map. apply Forall_forall. intros y _. apply never_ret.
  - apply andb_prop in Hw as (Hw & Hne). apply andb_prop in Hw as (Hn & Hw). rewrite (is_bool_eq t) by assumption.
    destruct (bools_total any vs) as (c & ->); [eapply bool_types; eassumption|]. apply tot_opt. exists (CBool c). split; [reflexivity|exact I].
Qed.
Lemma fold_total rt g t a xs : wt_fn sig g t [a; t] = true -> negb strict || good_fn g t = true -> Forall (served Inv) (fn_uses g) -> Forall (has_type a) xs -> forall acc, has_type t acc -> tot rt Inv (foldF strict funs g t xs acc) (has_type t).
Proof.
  intros Hw Hg HV H. induction H as [|x xs Hx H IH]; intros acc Hacc; cbn [foldF]; [apply tot_ret; exact Hacc|]. eapply tot_bind; [|exact IH].
  eapply apply_total; [exact Hw| |repeat constructor; assumption|exact HV]. destruct g; exact Hg.
Qed.
Lemma map_total rt g t ts rs : wt_fn sig g t ts = true -> negb strict || good_map g t (length ts) = true -> Forall (served Inv) (fn_uses g) -> Forall (Forall2 has_type ts) rs ->
  tot rt Inv (mapF strict funs g t rs) (fun ws => Forall (has_type t) ws /\ length ws = length rs).
Proof.
  intros Hw Hg HV H. induction H as [|vs rs Hx H IH]; cbn [mapF]; [apply tot_ret; split; [constructor|reflexivity]|]. eapply tot_bind; [eapply apply_total; eassumption|].
  intros v Hv. eapply tot_bind; [exact IH|]. intros ws (H1 & H2). apply tot_ret. split; [constructor; assumption|cbn [length]; congruence].
Qed.
Lemma rows_types ts n : forall ls, Forall2 (fun a l => Forall (has_type a) l) ts ls -> Forall (Forall2 has_type ts) (rows n ls).
Proof.
  induction n as [|n IH]; intros ls H; cbn [rows]; [constructor|]. destruct (forallb _ ls) eqn:Ef; [|constructor]. constructor.
  - clear IH. induction H as [|a l ts ls Hl H IH]; cbn [flat_map forallb] in *; [constructor|]. apply andb_prop in Ef as (E1 & E2). destruct l as [|x l]; [discriminate|]. cbn [firstn app]. inversion Hl; subst. constructor; auto.
  - apply IH. clear - H. induction H as [|a l ts ls Hl H IH]; cbn [map]; constructor; [|exact IH]. destruct Hl; cbn [tl]; [constructor|assumption].
Qed.
Lemma rows_short n : forall ls l, In l ls -> (length (rows n ls) <= length l)%nat.
Proof.
  induction n as [|n IH]; intros ls l Hin; cbn [rows]; [cbn; lia|]. destruct (forallb _ ls) eqn:Ef; [|cbn; lia].
  rewrite forallb_forall in Ef. specialize (Ef _ Hin). destruct l as [|x l]; [discriminate|]. cbn [length]. apply le_n_S. apply IH. change l with (tl (x :: l)). apply in_map. exact Hin.
Qed.
Lemma items_type t v : is_seq t = true -> has_type t v -> Forall (has_type (elem_ty t)) (seq_items v).
Proof.
  intros Ht Hv. destruct t; try discriminate; destruct v; try contradiction; cbn [has_type elem_ty seq_items] in *; destruct Hv as (_ & Hv); try exact Hv.
  all: apply Forall_map; eapply Forall_impl; [|exact Hv]; intros x Hx; cbn [has_type length]; split; [lia|constructor; [exact Hx|constructor]].
Qed.
Lemma put_total t v i w : is_seq t = true -> has_type t v -> has_type (elem_ty t) w -> empty_for v w = false -> exists c, seq_put v i w = Some c.
Proof.
  intros Ht Hv Hw He. destruct t; try discriminate; destruct v; try contradiction; cbn [elem_ty has_type] in Hw; try (eexists; reflexivity).
  all: destruct w; try contradiction; destruct Hw as (Hl & _); cbn [empty_for] in He; match type of He with (match ?l0 with _ => _ end) = _ => destruct l0 as [|y l1]; try discriminate; destruct l1; [eexists; reflexivity|cbn [length] in Hl; lia] end.
Qed.

Ltac bsplit := repeat match goal with H : _ && _ = true |- _ => apply andb_prop in H as (? & ?) end.
Ltac lsplit := repeat match goal with H : Forall _ (_ ++ _) |- _ => apply Forall_app in H as (? & ?) end.
Ltac use IH := eapply IH; [eassumption|assumption|assumption|assumption|assumption].
Ltac vcase v H := destruct v; cbn [has_type] in H; try contradiction.

Theorem eval_total e : tgood e.
Proof.
  induction e using expr_ind'; intros rt G r Hwt HPl HL HR HV; cbn [wt lits plain_if uses] in Hwt, HL, HPl, HV; cbn [ty_of eval].
  - bsplit. apply tot_ret. apply type_num; auto. apply fitsb_range; auto.
  - apply tot_ret. exact I.
  - apply tot_ret. inversion HL; subst. assumption.
  - apply tot_ret. destruct t; try discriminate. exact I.
  - destruct (assoc x G) as [t0|] eqn:Ex; [|discriminate]. destruct (HR _ _ Ex) as (v & Ev & Hv). apply tot_opt. exists v. split; [exact Ev|]. eapply widens_has_type; eauto.
  - bsplit. lsplit. eapply tot_bind; [use IHe1|]. intros _ _. use IHe2.
  - bsplit. lsplit. eapply tot_bind; [use IHe1|]. intros v Hv. eapply IHe2; [eassumption|assumption|assumption|apply envt_cons; assumption|assumption].
  - bsplit. lsplit. eapply tot_bind; [use IHe1|]. intros v Hv. rewrite (is_bool_eq (ty_of e1)) in Hv by assumption. vcase v Hv.
    destruct b; [use IHe2|]. eapply tot_mono; [use IHe3|]. intros v. apply widens_has_type. assumption.
  - apply tot_allM. eapply (tgoods rt G r TBool es (fun e => is_bool (ty_of e))); eauto. intros e. apply widens_bool.
  - apply tot_allM. eapply (tgoods rt G r TBool es (fun e => is_bool (ty_of e))); eauto. intros e. apply widens_bool.
  - bsplit. lsplit. eapply tot_bind; [use IHe|]. intros v Hv. eapply tot_bind.
    + apply tot_mapM1. eapply (tgoods rt G r (ty_of e) es (fun e0 => widens (ty_of e0) (ty_of e))); eauto.
    + intros vs _. apply tot_ret. exact I.
  - eapply tot_bind; [use IHe|]. intros v Hv. apply tot_ret. exact Hv.
  - eapply tot_bind; [use IHe|]. intros v Hv. apply tot_ret. exact Hv.
  - eapply tot_bind; [use IHe|]. intros v Hv. apply tot_ret. exact Hv.
  - bsplit. lsplit. eapply tot_bind; [use IHe1|]. intros v Hv. destruct (ty_of e1) eqn:T1; try discriminate. bsplit. vcase v Hv.
    + eapply tot_mono; [use IHe3|]. intros v. apply widens_has_type. assumption.
    + eapply IHe2; [eassumption|assumption|assumption|apply envt_cons; assumption|assumption].
  - bsplit. lsplit. eapply tot_bind; [use IHe1|]. intros v Hv. destruct (ty_of e1) eqn:T1; try discriminate. bsplit. vcase v Hv.
    + eapply IHe2; [eassumption|assumption|assumption|apply envt_cons; assumption|assumption].
    + eapply tot_mono; [eapply IHe3; [eassumption|assumption|assumption|apply envt_cons; assumption|assumption]|]. intros w. apply widens_has_type. assumption.
  - bsplit. lsplit. eapply tot_bind; [use IHe1|]. intros v Hv. eapply tot_bind; [use IHe2|]. intros w Hw.
    destruct (ty_of e1); try discriminate; vcase v Hv; try (apply tot_ret; exact Hv); apply tot_early; eapply widens_has_type; eauto.
  - bsplit. lsplit. eapply tot_bind; [use IHe1|]. intros v Hv. eapply tot_bind; [use IHe2|]. intros w Hw.
    destruct (ty_of e1); try discriminate; vcase v Hv; try (apply tot_ret; exact Hv); apply tot_early; eapply widens_has_type; eauto.
  - bsplit. lsplit. eapply tot_bind; [use IHe1|]. intros v Hv. rewrite (is_bool_eq (ty_of e1)) in Hv by assumption. vcase v Hv. destruct b.
    + apply tot_unless; [apply tot_ret; exact I|]. intros Hs k0 h0 Hi0. match goal with H : negb strict || _ = true |- _ => rewrite Hs in H; cbn [negb orb] in H; rename H into Hq end.
      rewrite (quiet_pure _ Hq). unfold done. assert (K : exists rs, eval strict funs e2 r h0 = Some rs) by (assert (K0 : tot rt Inv (eval strict funs e2 r) (has_type (ty_of e2))) by (use IHe2); destruct (K0 k0 h0 Hi0) as (rs & K & _); exists rs; exact K).
      destruct K as (rs & K). destruct (quiet_never _ _ _ Hq _ _ _ K) as (x & h1 & ->). rewrite K. reflexivity.
    + eapply tot_bind; [use IHe2|]. intros w Hw. apply tot_early. eapply widens_has_type; eauto.
  - bsplit. eapply tot_bind; [use IHe|]. intros v Hv. destruct (ty_of e); try discriminate; destruct rt eqn:Ert; try discriminate; vcase v Hv; try (apply tot_ret; exact Hv).
    + apply tot_early. exact I.
    + apply tot_early. cbn [has_type]. eapply widens_has_type; eauto.
  - bsplit. eapply tot_bind; [use IHe|]. intros v Hv. destruct (ty_of e); try discriminate; vcase v Hv; try (apply tot_ret; exact Hv); apply tot_abort.
  - bsplit. eapply tot_bind; [use IHe|]. intros v Hv. destruct (ty_of e); try discriminate; vcase v Hv; try (apply tot_ret; exact Hv); apply tot_abort.
  - bsplit. eapply tot_bind; [use IHe|]. intros v Hv. destruct (ty_of e); try discriminate; vcase v Hv; apply tot_ret; exact I.
  - bsplit. eapply tot_bind; [use IHe|]. intros v Hv. destruct (ty_of e); try discriminate; vcase v Hv; apply tot_ret; exact I.
  - bsplit. eapply tot_bind; [use IHe|]. intros v Hv. destruct (ty_of e); try discriminate; vcase v Hv; apply tot_ret; exact I.
  - bsplit. eapply tot_bind; [use IHe|]. intros v Hv. destruct (ty_of e); try discriminate; vcase v Hv; apply tot_ret; exact I.
  - bsplit. lsplit. eapply tot_bind; [use IHe1|]. intros v Hv. eapply tot_bind; [use IHe2|]. intros w Hw.
    destruct (ty_of e2); try discriminate. vcase w Hw; apply tot_ret; [exact Hv|]. eapply widens_has_type; eauto.
  - (* tuple *) bsplit. match goal with H : ty_okb _ = true |- _ => apply ty_okb_ok in H; rewrite ty_ok_tuple in H; destruct H as (_ & Hnd & _) end.
    set (fl := fun vs : list (string * value) => Forall2 (fun v f => fst v = fst f) vs fs /\ Forall (fun v => exists t, assoc (fst v) ts = Some t /\ has_type t (snd v)) vs).
    eapply (tot_bind _ _ _ _ fl).
    + clear H1. unfold fl. clear fl. rename H2 into Hf. induction H as [|[k e] fs He H IH]; cbn [map mapM]; [apply tot_ret; split; constructor|].
      cbn [forallb flat_map fst snd] in *. bsplit. lsplit. destruct (assoc k ts) as [t|] eqn:Ek; [|discriminate]. bsplit.
      eapply (tot_bind _ _ _ _ (fun x => fst x = k /\ has_type t (snd x))).
      * eapply tot_bind; [use He|]. intros v Hv. apply tot_ret. split; [reflexivity|]. eapply widens_has_type; eauto.
      * intros [k' v] (Hk & Hv). cbn [fst snd] in Hk, Hv. subst k'. eapply tot_bind; [apply IH; assumption|]. intros vs (V1 & V2). apply tot_ret. split; constructor; auto. exists t. auto.
    + intros vs (V1 & V2). apply tot_opt.
      destruct (build_fields (fun k => assoc k vs) ts) as (lv & E1 & E2).
      * intros k t Hin. rename H1 into Hcov. rewrite forallb_forall in Hcov. specialize (Hcov _ Hin). apply existsb_exists in Hcov as ([k' e'] & Hin' & Hk). cbn [fst] in Hk. apply String.eqb_eq in Hk. subst k'.
        assert (Hex : exists v, In (k, v) vs). { clear - V1 Hin'. induction V1 as [|[a b] [c d] vs fs Hx V1 IH]; [destruct Hin'|]. cbn [fst] in Hx. subst c. destruct Hin' as [Hi|Hi]; [injection Hi as -> ->; exists b; left; reflexivity|]. destruct (IH Hi) as (v & Hv). exists v. right. exact Hv. }
        assert (Has : exists v, assoc k vs = Some v). { clear - Hex. destruct Hex as (v & Hv). induction vs as [|[a b] vs IH]; [destruct Hv|]. cbn [assoc]. destruct (String.eqb_spec a k); [eexists; reflexivity|]. destruct Hv as [Hv|Hv]; [congruence|auto]. }
        destruct Has as (v & Hv). exists v. split; [exact Hv|]. apply assoc_in in Hv. rewrite Forall_forall in V2. destruct (V2 _ Hv) as (t' & T1 & T2). cbn [fst snd] in T1, T2.
        rewrite (in_assoc _ _ _ Hnd Hin) in T1. injection T1 as <-. exact T2.
      * exists (CTuple lv). split; [|exact E2]. cbv beta in E1. rewrite E1. reflexivity.
  - (* get *) bsplit. eapply tot_bind; [use IHe|]. intros v Hv. destruct (ty_of e) eqn:Te; try discriminate.
    + destruct t; try discriminate. bsplit. match goal with H : ty_okb _ = true |- _ => apply ty_okb_ok in H; rewrite ty_ok_tuple in H; destruct H as (_ & Hnd & _) end.
      vcase v Hv; [apply tot_ret; exact I|]. vcase v Hv. change (fields_typed fs fs0) in Hv. pose proof (has_key_in _ _ H1) as Hin.
      destruct (proj2 (fields_typed_key _ _ k Hv) (ex_intro _ _ (in_assoc _ _ _ Hnd Hin))) as (x & Hx). apply tot_opt. exists (CSome x). rewrite Hx. split; [reflexivity|].
      exact (fields_typed_assoc _ _ _ _ _ Hv Hnd Hin Hx).
    + bsplit. match goal with H : ty_okb _ = true |- _ => apply ty_okb_ok in H; rewrite ty_ok_tuple in H; destruct H as (_ & Hnd & _) end.
      vcase v Hv. change (fields_typed fs fs0) in Hv. pose proof (has_key_in _ _ H1) as Hin.
      destruct (proj2 (fields_typed_key _ _ k Hv) (ex_intro _ _ (in_assoc _ _ _ Hnd Hin))) as (x & Hx). apply tot_opt. exists x. split; [exact Hx|].
      exact (fields_typed_assoc _ _ _ _ _ Hv Hnd Hin Hx).
  - (* merge *) bsplit. lsplit. eapply tot_bind; [use IHe1|]. intros v Hv. eapply tot_bind; [use IHe2|]. intros w Hw.
    destruct (ty_of e1) as [| | | | | | | | | | | |ta]; try discriminate. destruct (ty_of e2) as [| | | | | | | | | | | |tb]; try discriminate. bsplit.
    vcase v Hv. vcase w Hw. change (fields_typed ta fs) in Hv. change (fields_typed tb fs0) in Hw. apply tot_opt.
    repeat match goal with H : ty_okb _ = true |- _ => apply ty_okb_ok in H; rewrite ty_ok_tuple in H; destruct H as (_ & ? & _) end.
    destruct (build_fields (fun k => match assoc k fs0 with Some x => Some x | None => assoc k fs end) ts) as (lv & E1 & E2).
    + match goal with H : NoDup (map fst ta) |- _ => rename H into Nda end. match goal with H : NoDup (map fst tb) |- _ => rename H into Ndb end.
      intros k t Hin. match goal with H : forallb _ ts = true |- _ => rewrite forallb_forall in H; specialize (H _ Hin); cbn [fst snd] in H; rename H into Hk end.
      destruct (has_key k tb) eqn:Kb.
      * pose proof (has_key_in _ _ Kb) as Hi. destruct (proj2 (fields_typed_key _ _ k Hw) (ex_intro _ _ (in_assoc _ _ _ Ndb Hi))) as (x & Hx). rewrite Hx. exists x. split; [reflexivity|].
        eapply widens_has_type; [exact Hk|]. eapply (fields_typed_assoc tb fs0 k); eauto.
      * apply andb_prop in Hk as (Ka & Hk). destruct (assoc k fs0) as [x|] eqn:Ex.
        { exfalso. destruct (proj1 (fields_typed_key _ _ k Hw) (ex_intro _ _ Ex)) as (u & Hu). unfold has_key in Kb. rewrite Hu in Kb. discriminate. }
        pose proof (has_key_in _ _ Ka) as Hi. destruct (proj2 (fields_typed_key _ _ k Hv) (ex_intro _ _ (in_assoc _ _ _ Nda Hi))) as (x & Hx). rewrite Hx. exists x. split; [reflexivity|].
        eapply widens_has_type; [exact Hk|]. eapply (fields_typed_assoc ta fs k); eauto.
    + exists (CTuple lv). split; [|exact E2]. cbv beta in E1. rewrite E1. reflexivity.
  - (* list *) bsplit. eapply (tot_bind _ _ _ _ (fun vs => length vs = length es /\ Forall (has_type t) vs)).
    + assert (K : Forall (fun m => tot rt Inv m (has_type t)) (map (fun e => eval strict funs e r) es)) by (eapply (tgoods rt G r t es (fun e => widens (ty_of e) t)); eauto).
      rewrite <- (map_length (fun e => eval strict funs e r) es). revert K. generalize (map (fun e => eval strict funs e r) es). clear.
      induction 1; cbn [mapM]; [apply tot_ret; split; [reflexivity|constructor]|]. eapply tot_bind; [exact H|]. intros v Hv. eapply tot_bind; [exact IHK|]. intros vs (V1 & V2).
      apply tot_ret. split; [cbn; congruence|constructor; auto].
    + intros vs (V1 & V2). apply tot_ret. cbn [has_type]. rewrite V1. split; [apply Z.leb_le; assumption|exact V2].
  - (* concat *) bsplit. lsplit. eapply tot_bind; [use IHe1|]. intros v Hv. eapply tot_bind; [use IHe2|]. intros w Hw. apply tot_opt.
    assert (Ha : is_seq (ty_of e1) = true) by (eapply (seq_widens _ t); assumption). assert (Hb : is_seq (ty_of e2) = true) by (eapply (seq_widens _ t); assumption).
    pose proof (seq_type_len _ _ Ha Hv). pose proof (seq_type_len _ _ Hb Hw).
    match goal with H : (_ <=? _) = true |- _ => apply Z.leb_le in H end.
    assert (Hv' : has_type t v) by (apply (widens_has_type (ty_of e1)); assumption). assert (Hw' : has_type t w) by (apply (widens_has_type (ty_of e2)); assumption).
    assert (Hc : exists c, seq_concat v w = Some c) by (destruct t; try discriminate; destruct v; try contradiction; destruct w; try contradiction; eexists; reflexivity).
    destruct Hc as (c & Hc). exists c. split; [exact Hc|]. pose proof (seq_concat_len _ _ _ Hc). apply (seq_concat_type t v w c); try assumption. lia.
  - (* append *) bsplit. lsplit. eapply tot_bind; [use IHe1|]. intros v Hv. eapply tot_bind; [use IHe2|]. intros w Hw.
    assert (Hv' : has_type (TList (n - 1) t) v) by (apply (widens_has_type (ty_of e1)); assumption). vcase v Hv'. apply tot_ret. cbn [has_type].
    destruct Hv' as (L1 & L2). rewrite app_length. cbn [length]. split; [lia|]. apply Forall_app. split; [exact L2|]. constructor; [|constructor]. eapply widens_has_type; eauto.
  - (* as-max-len *) bsplit. eapply tot_bind; [use IHe|]. intros v Hv. apply tot_ret. destruct (Z.leb_spec (seq_len v) n); [|exact I]. cbn [has_type].
    eapply widens_has_type; [eassumption|]. destruct (ty_of e); try discriminate; vcase v Hv; cbn [with_max has_type seq_len] in *; destruct Hv; split; auto.
  - bsplit. eapply tot_bind; [use IHe|]. intros v Hv. apply tot_ret. pose proof (seq_type_len _ _ ltac:(eassumption) Hv) as Hl.
    cbn [has_type]. match goal with H : ty_okb _ = true |- _ => apply ty_okb_ok in H; rename H into Hok end.
    assert (seq_max (ty_of e) <= max_value_size) as Hmx by (clear - Hok; destruct (ty_of e); cbn [ty_ok seq_max] in *; unfold max_value_size in *; lia). unfold max_value_size in Hmx. clear - Hmx Hl. lia.
  - bsplit. lsplit. eapply tot_bind; [use IHe1|]. intros v Hv. eapply tot_bind; [use IHe2|]. intros w Hw. rewrite (is_uint_eq (ty_of e2)) in Hw by assumption. vcase w Hw.
    apply tot_ret. destruct (seq_nth v z) as [x|] eqn:En; [|exact I]. cbn [has_type]. eapply nth_type; eauto.
  - (* slice *) bsplit. lsplit. eapply tot_bind; [use IHe1|]. intros v Hv.
    eapply (tot_bind _ _ _ _ (fun w => has_type TUInt w /\ (strict = true -> match w with CUInt n => n < 2 ^ 32 | _ => True end))).
    { apply tot_both; [rewrite <- (is_uint_eq (ty_of e2)) by assumption; use IHe2|]. intros h a h' Ea Hs. match goal with H : negb strict || _ = true |- _ => rewrite Hs in H; cbn [negb orb] in H end.
      destruct e2; try discriminate. cbn [small_left eval] in *. unfold ret in Ea. assert (a = num t z) by congruence. subst a. match goal with H : (z <? _) = true |- _ => apply Z.ltb_lt in H end. destruct t; try exact I; assumption. }
    intros w (Hw & Hsm). vcase w Hw. eapply tot_bind; [use IHe3|]. intros y Hy. rewrite (is_uint_eq (ty_of e3)) in Hy by assumption. vcase y Hy.
    apply tot_unless; [|intros Hs ? ? _; specialize (Hsm Hs); rewrite (proj2 (Z.leb_gt _ _)) by exact Hsm; reflexivity].
    apply tot_ret. destruct (_ && _); [|exact I]. cbn [has_type]. apply slice_type; assumption.
  - (* replace *) bsplit. lsplit. eapply tot_bind; [use IHe1|]. intros v Hv. eapply tot_bind; [use IHe2|]. intros x Hx. rewrite (is_uint_eq (ty_of e2)) in Hx by assumption. vcase x Hx.
    eapply (tot_bind _ _ _ _ (fun w => has_type (elem_ty (ty_of e1)) w /\ (strict = true -> empty_for v w = false))).
    { apply tot_both; [eapply tot_mono; [use IHe3|]; intros w; apply widens_has_type; assumption|]. intros h a h' Ea Hs. match goal with H : negb strict || _ = true |- _ => rewrite Hs in H; cbn [negb orb] in H; rename H into Hgi end.
      destruct (ty_of e1) eqn:T1; try discriminate; vcase v Hv; try reflexivity.
      all: destruct e3; try discriminate; cbn [good_item eval] in *; unfold ret in Ea; match type of Ea with Some (Done ?v0 _) = _ => assert (a = v0) by congruence; subst a; destruct v0; try reflexivity; try discriminate end.
      all: match type of Hgi with (match ?l0 with _ => _ end) = _ => destruct l0; [discriminate|reflexivity] end. }
    intros w (Hw & Hem). destruct (Z.ltb_spec z (seq_len v)) as [Hlt|Hge].
    + destruct (empty_for v w) eqn:Hef; [apply tot_abort|]. destruct (put_total _ v z w ltac:(eassumption) Hv Hw Hef) as (c & Hc). rewrite Hc. apply tot_opt. exists (CSome c). split; [reflexivity|].
      cbn [has_type]. apply (put_type _ v z w c); auto. clear - Hx Hlt. lia.
    + apply tot_unless; [apply tot_ret; exact I|]. intros Hs ? ? _. exact (Hem Hs).
  - (* index *) bsplit. lsplit. eapply tot_bind; [use IHe1|]. intros v Hv. assert (Kb : tot rt Inv (eval strict funs e2 r) (has_type (ty_of e2))) by (use IHe2).
    apply tot_unless.
    + eapply tot_bind; [exact Kb|]. intros w Hw. apply tot_ret. destruct (find_from w (seq_items v) 0) as [i|] eqn:Ef; [|exact I]. apply find_bound in Ef. rewrite (items_len (ty_of e1)) in Ef by assumption.
      pose proof (seq_type_len _ _ ltac:(eassumption) Hv) as Hl. cbn [has_type]. match goal with H : ty_okb (ty_of e1) = true |- _ => apply ty_okb_ok in H; rename H into Hok end.
      assert (seq_max (ty_of e1) <= max_value_size) as Hmx by (clear - Hok; destruct (ty_of e1); cbn [ty_ok seq_max] in *; unfold max_value_size in *; lia). unfold max_value_size in Hmx. clear - Hmx Hl Ef. lia.
    + intros Hs k0 h0 Hi0. match goal with H : negb strict || _ = true |- _ => rewrite Hs in H; cbn [negb orb] in H; rename H into Hq end. rewrite (quiet_pure _ Hq). cbn [andb].
      destruct (Kb k0 h0 Hi0) as (rs & Eb & _). destruct (quiet_never strict funs _ Hq r _ _ Eb) as (w & h1 & ->). unfold done. rewrite Eb. cbn [negb]. apply andb_false_r.
  - (* fold *) bsplit. lsplit. eapply tot_bind; [use IHe1|]. intros v Hv. eapply tot_bind; [use IHe2|]. intros w Hw.
    eapply fold_total; [eassumption|assumption|assumption|apply items_type; assumption|apply (widens_has_type (ty_of e2)); assumption].
  - (* map *) bsplit. apply Forall_app in HV as (HVg & HV).
    match goal with H : forallb (fun e => wt sig rt G e && _) es = true |- _ => rename H into Hall end. match goal with H : existsb _ es = true |- _ => rename H into Hex end. match goal with H : forallb (plain_if strict) es = true |- _ => rename H into Hpl end.
    eapply (tot_bind _ _ _ _ (fun vs => Forall2 (fun e v => is_seq (ty_of e) = true /\ has_type (ty_of e) v) es vs)).
    + clear - H Hall HL HR HV Hpl. induction H as [|e es He H IH]; cbn [map mapM forallb flat_map] in *; [apply tot_ret; constructor|]. bsplit. lsplit.
      eapply tot_bind; [use He|]. intros v Hv. eapply tot_bind; [apply IH; assumption|]. intros vs Hvs. apply tot_ret. constructor; auto.
    + intros vs Hvs. eapply tot_bind.
      * eapply (map_total rt g t (map (fun e => elem_ty (ty_of e)) es)); [eassumption|rewrite map_length; assumption|exact HVg|].
        apply rows_types. clear - Hvs. induction Hvs as [|e v es vs (H1 & H2) Hvs IH]; cbn [map]; constructor; [apply items_type; assumption|exact IH].
      * intros ws (W1 & W2). apply tot_ret. cbn [has_type]. split; [|exact W1]. rewrite W2. apply existsb_exists in Hex as (e & Hin & Hle).
        assert (Hl : exists v, In v vs /\ is_seq (ty_of e) = true /\ has_type (ty_of e) v). { clear - Hvs Hin. induction Hvs as [|e0 v es vs K Hvs IH]; [destruct Hin|]. destruct Hin as [->|Hin]; [exists v; split; [left; reflexivity|exact K]|]. destruct (IH Hin) as (w & I1 & I2). exists w. split; [right; exact I1|exact I2]. }
        destruct Hl as (v & I1 & I2 & I3). pose proof (seq_type_len _ _ I2 I3) as Hln. pose proof (rows_short (length (hd [] (map seq_items vs))) (map seq_items vs) (seq_items v) (in_map _ _ _ I1)) as Hrs.
        pose proof (items_len (ty_of e) v I2 I3) as Hil. unfold zip_rows. clear - Hle Hln Hrs Hil. lia.
  - bsplit. lsplit. eapply tot_bind; [use IHe|]. intros v Hv. cbv zeta.
    assert (Kes : Forall (fun m => tot rt Inv m (has_type t)) (map (fun e => eval strict funs e r) es)) by (eapply (tgoods rt G r t es (fun e0 => widens (ty_of e0) t)); eauto).
    apply tot_unless; [eapply tot_bind; [apply tot_mapM1; exact Kes|]; intros vs Hvs; apply tot_arithM; auto; eapply widens_has_type; eauto|].
    intros Hs k0 h0 Hi0. match goal with H : negb strict || _ = true |- _ => rewrite Hs in H; cbn [negb orb] in H; apply andb_prop in H as (Hga & Hq) end.
    apply negb_false_iff. unfold arith_ok. destruct es as [|e2 es].
    + cbn [map]. destruct (num_of t v); [|reflexivity]. destruct o, t; try reflexivity; discriminate.
    + cbn [map] in *. eapply (foldA_okP rt Inv); [|exact Hi0|exact Kes|].
      * intros a b. destruct o, t; try reflexivity; discriminate.
      * cbn [tl] in *. clear - Hq. induction es as [|e es IH]; cbn [map forallb] in *; constructor; apply andb_prop in Hq as (? & ?); [apply quiet_never; assumption|auto].
  - bsplit. eapply (tot_bind _ _ _ _ (fun vs => Forall2 has_type (map ty_of es) vs)).
    + match goal with H : forallb (wt sig rt G) es = true |- _ => rename H into Hall end. match goal with H : forallb (plain_if strict) es = true |- _ => rename H into Hpl end. clear - H Hall HL HR HV Hpl. induction H as [|e es He H IH]; cbn [map mapM forallb flat_map] in *; [apply tot_ret; constructor|]. bsplit. lsplit.
      eapply tot_bind; [use He|]. intros v Hv. eapply tot_bind; [apply IH; assumption|]. intros vs Hvs. apply tot_ret. constructor; auto.
    + intros vs Hvs. apply tot_unless; [|intros Hs ? ? _; match goal with H : negb strict || _ = true |- _ => rewrite Hs in H; cbn [negb orb] in H; rename H into Hgw end; eapply word_fine; eassumption].
      destruct (word_total w t _ _ ltac:(eassumption) Hvs) as (x & Hx & Hty). eapply tot_bind; [apply (tot_opt _ _ _ (fun y => y = x)); exists x; auto|].
      intros y ->. apply tot_sum. exact Hty.
  - destruct (assoc f sig) as [[ts tr]|] eqn:Ef; [|discriminate]. bsplit. apply Forall_app in HV as (HVk & HV). eapply (tot_bind _ _ _ _ (fun vs => Forall2 has_type ts vs)).
    + match goal with H : (length es =? length ts)%nat = true |- _ => apply Nat.eqb_eq in H; rename H into Hln end. match goal with H : forallb _ (combine es ts) = true |- _ => rename H into Hwd end. match goal with H : forallb (wt sig rt G) es = true |- _ => rename H into Hall end.
      rename HPl into Hpl. clear - H Hall HL HR HV Hln Hwd Hpl. revert ts Hln Hwd. induction H as [|e es He H IH]; intros [|t ts] Hln Hwd; try discriminate; cbn [map mapM forallb flat_map combine fst snd length] in *; [apply tot_ret; constructor|]. bsplit. lsplit. injection Hln as Hln.
      eapply tot_bind; [use He|]. intros v Hv. eapply tot_bind; [apply (IH ltac:(assumption) ltac:(assumption) ltac:(assumption) ltac:(assumption) ts Hln ltac:(assumption))|]. intros vs Hvs. apply tot_ret. constructor; auto. eapply widens_has_type; eauto.
    + intros vs Hvs. eapply tot_mono with (P := has_type tr); [|intros v; apply widens_has_type; assumption].
      assert (Kf : tot rt Inv (funs f vs) (has_type tr)) by (eapply Hfuns; eauto). unfold called_as, kind_uses in *. destruct (kind_scope k) as [s|]; [|exact Kf].
      inversion HVk; subst. apply tot_scoped; [assumption|exact Kf|]. intros _ k0 h v h' _. apply Hleave.
  - (* as-contract *) bsplit. inversion HV as [|? ? Hs0 HV']; subst. apply tot_scoped; [exact Hs0|use IHe|].
    intros Hst k0 h v h' Hi0 Ea. match goal with H : negb strict || _ = true |- _ => rewrite Hst in H; cbn [negb orb] in H; rename H into Hsy end.
    pose proof (stays_wt sig rt TNo e Hsy G Hwt) as Hwt'. assert (Kn : tot TNo Inv (eval strict funs e r) (has_type (ty_of e))) by (use IHe).
    destruct (Kn k0 h Hi0) as (rs & E & Kr). rewrite E in Ea. injection Ea as ->. destruct Kr as (Kr & _). exact Kr.
  - bsplit. inversion HV as [|? ? Hp0 HV']; subst. apply Forall_app in HL as (_ & HL'). clear HV. eapply (tot_bind _ _ _ _ (fun vs => Forall2 has_type (prim_args p) vs)).
    + match goal with H : (length es =? _)%nat = true |- _ => apply Nat.eqb_eq in H; rename H into Hln end. match goal with H : forallb _ (combine es _) = true |- _ => rename H into Hwd end. match goal with H : forallb (wt sig rt G) es = true |- _ => rename H into Hall end.
      rename HPl into Hpl. revert Hln Hwd. generalize (prim_args p). clear - H Hall HL' HR HV' Hpl. induction H as [|e es He H IH]; intros [|t ts] Hln Hwd; try discriminate; cbn [map mapM forallb flat_map combine fst snd length] in *; [apply tot_ret; constructor|]. bsplit. lsplit. injection Hln as Hln.
      eapply tot_bind; [use He|]. intros v Hv. eapply tot_bind; [apply (IH ltac:(assumption) ltac:(assumption) ltac:(assumption) ltac:(assumption) ts Hln ltac:(assumption))|]. intros vs Hvs. apply tot_ret. constructor; auto. eapply widens_has_type; eauto.
    + intros vs Hvs k h Hi. destruct (Hp0 vs k h Hi Hvs) as (rs & E & K). exists rs. split; [exact E|]. destruct rs; [exact K|contradiction|exact I].
Qed.
End Eval.

(** programs *)
Lemma params_envt ps vs : Forall2 has_type (map snd ps) vs -> envt ps (combine (map fst ps) vs).
Proof.
  revert vs. induction ps as [|[x t] ps IH]; intros vs H y u Hy; [discriminate|]. cbn [map snd] in H. inversion H; subst. cbn [map fst combine assoc] in *.
  destruct (String.eqb x y); [injection Hy as <-; eexists; eauto|]. eapply IH; eassumption.
Qed.
Lemma run_leaves {HS} {CH : chain HS} strict ds f vs (h : HS) v h' : run_defs strict ds f vs h <> Some (Early v h').
Proof.
  induction ds as [|d ds IH]; cbn [run_defs]; [discriminate|]. destruct (String.eqb (fd_name d) f); [|exact IH]. unfold as_fun.
  destruct (eval strict (run_defs strict ds) (fd_body d) (combine (map fst (fd_params d)) vs) h) as [rs|]; [|discriminate]. destruct rs; congruence.
Qed.
Lemma run_total_if {HS} {CH : chain HS} {KT} (Inv : KT -> HS -> Prop) strict ds rt : wt_prog ds = true -> plain_prog_if strict ds = true -> Forall (fun l => has_type (fst (fst l)) (snd (fst l))) (prog_lits ds) ->
  Forall (served Inv) (prog_uses ds) ->
  forall f ts tr vs, assoc f (prog_sig ds) = Some (ts, tr) -> Forall2 has_type ts vs ->
  tot rt Inv (run_defs strict ds f vs) (has_type tr) /\ forall (h : HS) v h', run_defs strict ds f vs h <> Some (Early v h').
Proof.
  revert rt. induction ds as [|d ds IH]; intros rt Hwt HP HL HV f ts tr vs Hf Hvs; [discriminate|]. cbn [wt_prog prog_lits prog_uses flat_map plain_prog_if forallb] in *.
  repeat match goal with H : _ && _ = true |- _ => apply andb_prop in H as (? & ?) end. apply Forall_app in HL as (L1 & L2). apply Forall_app in HV as (V1 & V2).
  match goal with H : forallb _ ds = true |- _ => change (plain_prog_if strict ds = true) in H; rename H into HP2 end. match goal with H : plain_if strict (fd_body d) = true |- _ => rename H into HP1 end.
  cbn [prog_sig map assoc] in Hf. unfold def_sig in Hf at 1. cbn [run_defs]. destruct (String.eqb (fd_name d) f) eqn:Ef.
  - injection Hf as <- <-.
    pose proof (eval_total Inv strict (prog_sig ds) (run_defs strict ds) (fun rt f ts tr vs H1 H2 => proj1 (IH rt ltac:(assumption) HP2 L2 V2 f ts tr vs H1 H2)) (run_leaves strict ds) (fd_body d) (fd_ret d) (fd_params d) (combine (map fst (fd_params d)) vs) ltac:(assumption) HP1 L1 (params_envt _ _ Hvs) V1) as K0.
    split.
    + intros k h Hi. unfold as_fun. destruct (K0 k h Hi) as (rs & -> & HK). destruct rs as [v h'|v h'|c]; eexists; (split; [reflexivity|]); [destruct HK; split; [eapply widens_has_type; eauto|assumption]|exact HK|exact I].
    + intros h v h'. unfold as_fun. destruct (eval strict (run_defs strict ds) (fd_body d) (combine (map fst (fd_params d)) vs) h) as [rs|]; [|discriminate]. destruct rs; congruence.
  - eapply (IH rt); eassumption.
Qed.
(** the reference evaluator is defined and type-correct on well-typed programs *)
Theorem run_total {HS} {CH : chain HS} {KT} (Inv : KT -> HS -> Prop) ds : wt_prog ds = true -> Forall (fun l => has_type (fst (fst l)) (snd (fst l))) (prog_lits ds) ->
  Forall (served Inv) (prog_uses ds) ->
  forall f ts tr vs k (h : HS), Inv k h -> assoc f (prog_sig ds) = Some (ts, tr) -> Forall2 has_type ts vs ->
  exists rs, run_defs false ds f vs h = Some rs /\ match rs with Done v h' => has_type tr v /\ Inv k h' | Early _ _ => False | Abort _ => True end.
Proof.
  intros H1 H2 HV f ts tr vs k h Hi H3 H4. assert (HP : plain_prog_if false ds = true) by (apply forallb_all, Forall_forall; intros; apply plain_false).
  destruct (run_total_if Inv false ds TInt H1 HP H2 HV f ts tr vs H3 H4) as (K1 & K2). destruct (K1 k h Hi) as (rs & E & K). exists rs. split; [exact E|]. destruct rs; try exact K. exact (K2 _ _ _ E).
Qed.
(** on plain programs the strict evaluator is the reference evaluator *)
Theorem run_plain {HS} {CH : chain HS} {KT} (Inv : KT -> HS -> Prop) ds : wt_prog ds = true -> plain_prog ds = true -> Forall (fun l => has_type (fst (fst l)) (snd (fst l))) (prog_lits ds) ->
  Forall (served Inv) (prog_uses ds) ->
  forall f ts tr vs k (h : HS), Inv k h -> assoc f (prog_sig ds) = Some (ts, tr) -> Forall2 has_type ts vs -> run_defs true ds f vs h = run_defs false ds f vs h.
Proof.
  intros H1 HP H2 HV f ts tr vs k h Hi H3 H4. destruct (run_total_if Inv true ds TInt H1 HP H2 HV f ts tr vs H3 H4) as (K1 & _). destruct (K1 k h Hi) as (rs & E & _).
  rewrite E. symmetry. apply run_strict. exact E.
Qed.
