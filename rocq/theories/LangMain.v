(** * Correctness of emitted expression code: all expressions, functions, programs (proof support) *)
From Coq Require Import ZArith String List Bool Lia.
Import ListNotations.
From Verif Require Import Wasm Std StdEnv WasmLogic WasmTac Mem MemFacts Bytes Spec SpecBytes SpecUtf8 ArithProofs Clar Rep RepFacts WriteProofs Emit EmitFacts EmitProofs
  Equal EqualProofs CallProofs ArgProofs Ast SpecLang Lang Typing LangFacts LangBase LangCtl LangEarly LangMem LangSeq LangList LangConcat LangTuple LangArith LangWord LangCopy LangCall LangSlice LangLaid LangReplace LangIndex LangFn LangFold LangMap LangPrim.
Open Scope string_scope.
Open Scope list_scope.
Open Scope Z_scope.

(** ** Pure expressions leave the chain state alone *)
Section Pure.
Context {HS : Type} {CH : chain HS}.
Definition keeps {A} (m : M HS A) : Prop := forall h a h', m h = Some (Done a h') -> h' = h.
Lemma keeps_ret {A} (a : A) : keeps (ret a).
Proof. intros h b h'. unfold ret. congruence. Qed.
Lemma keeps_bad {A} : keeps (bad (A := A)).
Proof. intros h b h'. discriminate. Qed.
Lemma keeps_early {A} v : keeps (early (A := A) v).
Proof. intros h b h'. discriminate. Qed.
Lemma keeps_abort {A} v : keeps (abort (A := A) v).
Proof. intros h b h'. discriminate. Qed.
Lemma keeps_opt {A} (o : option A) : keeps (of_opt o).
Proof. destruct o; [apply keeps_ret|apply keeps_bad]. Qed.
Lemma keeps_sum o : keeps (of_sum o).
Proof. destruct o; [apply keeps_ret|apply keeps_abort]. Qed.
Lemma keeps_bind {A B} (m : M HS A) (f : A -> M HS B) : keeps m -> (forall a, keeps (f a)) -> keeps (bind m f).
Proof.
  intros Hm Hf h b h' H. unfold bind in H. destruct (m h) as [[a h1|v h1|c]|] eqn:E; try discriminate.
  apply Hm in E. subst h1. eapply Hf; eauto.
Qed.
Lemma keeps_unless {A} s b (m : M HS A) : keeps m -> keeps (unless s b m).
Proof. intros Hm h a h' H. unfold unless in H. destruct (s && b h); [discriminate|eauto]. Qed.
Lemma keeps_mapM {A} (ms : list (M HS A)) : Forall keeps ms -> keeps (mapM ms).
Proof. induction 1; cbn [mapM]; [apply keeps_ret|]. apply keeps_bind; auto. intros a. apply keeps_bind; auto. intros; apply keeps_ret. Qed.
Lemma keeps_allM stop (ms : list (M HS value)) : Forall keeps ms -> keeps (allM stop ms).
Proof.
  induction 1; cbn [allM]; [apply keeps_ret|]. apply keeps_bind; auto. intros a. destruct a; try apply keeps_bad.
  destruct (Bool.eqb b stop); [apply keeps_ret|auto].
Qed.
Lemma keeps_foldA o t vs : forall v, keeps (foldA o t v vs).
Proof.
  induction vs as [|x vs IH]; intros v; cbn [foldA]; [apply keeps_ret|]. destruct (num_of t v), (num_of t x); try apply keeps_bad.
  apply keeps_bind; [apply keeps_sum|auto].
Qed.
Lemma keeps_arithM o t v vs : keeps (arithM o t v vs).
Proof. destruct vs; cbn [arithM]; [destruct (num_of t v); [apply keeps_sum|apply keeps_bad]|apply keeps_foldA]. Qed.

Variables (strict : bool) (funs : string -> list value -> M HS value).
Ltac kp := repeat first [apply keeps_ret|apply keeps_bad|apply keeps_early|apply keeps_abort|apply keeps_opt|apply keeps_sum|apply keeps_arithM
  |apply keeps_unless|apply keeps_bind; [solve [auto]|]
  |match goal with |- keeps (bind _ _) => apply keeps_bind end
  |match goal with |- forall _, _ => intros ? end|match goal with |- keeps (match ?x with _ => _ end) => destruct x end|solve [auto]].
Lemma pure_list es r : Forall (fun e => pure e = true -> forall r, keeps (eval strict funs e r)) es -> forallb pure es = true ->
  Forall keeps (map (fun e => eval strict funs e r) es).
Proof. induction 1 as [|e es He H IH]; intros Hp; cbn in *; constructor; apply andb_prop in Hp as (P1 & P2); auto. Qed.
Lemma keeps_apply g t vs : pure_fn g = true -> keeps (apply_fn strict funs g t vs).
Proof. destruct g; cbn [pure_fn]; intros Hg; try discriminate; cbn [apply_fn]; kp. Qed.
Lemma keeps_fold g t xs : pure_fn g = true -> forall acc, keeps (foldF strict funs g t xs acc).
Proof. intros Hg. induction xs as [|x xs IH]; intros acc; cbn [foldF]; [apply keeps_ret|]. apply keeps_bind; [apply keeps_apply; exact Hg|exact IH]. Qed.
Lemma keeps_map g t rs : pure_fn g = true -> keeps (mapF strict funs g t rs).
Proof. intros Hg. induction rs as [|vs rs IH]; cbn [mapF]; [apply keeps_ret|]. apply keeps_bind; [apply keeps_apply; exact Hg|]. intros v. apply keeps_bind; [exact IH|]. intros ws. apply keeps_ret. Qed.
Lemma pure_keeps e : pure e = true -> forall r, keeps (eval strict funs e r).
Proof.
  induction e using expr_ind'; cbn [pure]; intros Hp r; cbn [eval];
    repeat match goal with H : _ && _ = true |- _ => apply andb_prop in H as (? & ?) end;
    repeat match goal with IH : pure ?a = true -> _, H : pure ?a = true |- _ => specialize (IH H) end;
    try (kp; fail).
  - apply keeps_allM, pure_list; auto.
  - apply keeps_allM, pure_list; auto.
  - kp. apply keeps_mapM, pure_list; auto.
  - apply keeps_bind; [|kp]. apply keeps_mapM. induction H as [|[k e] fs He H IH]; cbn in *; [constructor|]. apply andb_prop in Hp as (P1 & P2).
    constructor; auto. cbn. kp.
  - kp. apply keeps_mapM, pure_list; auto.
  - kp. apply keeps_fold; auto.
  - apply keeps_bind; [apply keeps_mapM, pure_list; auto|]. intros vs. apply keeps_bind; [apply keeps_map; auto|]. intros ws. apply keeps_ret.
  - kp. apply keeps_mapM, pure_list; auto.
  - kp. apply keeps_mapM, pure_list; auto.
  - discriminate.
  - discriminate.
  - discriminate.
Qed.
End Pure.

(** ** The strict evaluator agrees with the reference where it yields something *)
Section Strict.
Context {HS : Type} {CH : chain HS}.
Definition below_m {A} (m m' : M HS A) : Prop := forall h x, m h = Some x -> m' h = Some x.
Lemma bm_refl {A} (m : M HS A) : below_m m m.
Proof. intros h x; auto. Qed.
Lemma bm_bind {A B} (m m' : M HS A) (f f' : A -> M HS B) : below_m m m' -> (forall a, below_m (f a) (f' a)) -> below_m (bind m f) (bind m' f').
Proof.
  intros Hm Hf h x H. unfold bind in *. destruct (m h) as [[a h1|v h1|c]|] eqn:E; try discriminate; rewrite (Hm _ _ E); auto. apply Hf. exact H.
Qed.
Lemma bm_unless {A} b b' (m m' : M HS A) : below_m m m' -> below_m (unless true b m) (unless false b' m').
Proof. intros Hm h x H. unfold unless in *. cbn [andb] in *. destruct (b h); [discriminate|auto]. Qed.
Lemma bm_scoped s (m m' : M HS value) : below_m m m' -> below_m (scoped true s m) (scoped false s m').
Proof.
  intros Hm h x H. unfold scoped in *. destruct (chain_open s h) as [h1|]; [|discriminate]. destruct (m h1) as [[v h2|v h2|c]|] eqn:E; try discriminate; rewrite (Hm _ _ E); exact H.
Qed.
Lemma bm_called k (m m' : M HS value) : below_m m m' -> below_m (called_as true k m) (called_as false k m').
Proof. unfold called_as. destruct (kind_scope k); [apply bm_scoped|auto]. Qed.
Lemma bm_mapM {A} (ms ms' : list (M HS A)) : Forall2 below_m ms ms' -> below_m (mapM ms) (mapM ms').
Proof. induction 1; cbn [mapM]; [apply bm_refl|]. apply bm_bind; auto. intros a. apply bm_bind; auto. intros; apply bm_refl. Qed.
Lemma bm_allM stop (ms ms' : list (M HS value)) : Forall2 below_m ms ms' -> below_m (allM stop ms) (allM stop ms').
Proof.
  induction 1; cbn [allM]; [apply bm_refl|]. apply bm_bind; auto. intros a. destruct a; try apply bm_refl.
  destruct (Bool.eqb b stop); [apply bm_refl|auto].
Qed.
Variables (funs funs' : string -> list value -> M HS value) (HF : forall f vs, below_m (funs f vs) (funs' f vs)).
Ltac kp := repeat first [apply bm_refl|apply bm_unless|apply bm_scoped|apply bm_called|solve [auto]
  |match goal with |- below_m (bind _ _) _ => apply bm_bind end
  |match goal with |- forall _, _ => intros ? end|match goal with |- below_m (match ?x with _ => _ end) _ => destruct x end].
Lemma strict_list es r : Forall (fun e => forall r, below_m (eval true funs e r) (eval false funs' e r)) es ->
  Forall2 below_m (map (fun e => eval true funs e r) es) (map (fun e => eval false funs' e r) es).
Proof. induction 1 as [|e es He H IH]; cbn; constructor; auto. Qed.
Lemma bm_apply g t vs : below_m (apply_fn true funs g t vs) (apply_fn false funs' g t vs).
Proof. destruct g; cbn [apply_fn]; kp. Qed.
Lemma bm_fold g t xs : forall acc, below_m (foldF true funs g t xs acc) (foldF false funs' g t xs acc).
Proof. induction xs as [|x xs IH]; intros acc; cbn [foldF]; [apply bm_refl|]. apply bm_bind; [apply bm_apply|exact IH]. Qed.
Lemma bm_map g t rs : below_m (mapF true funs g t rs) (mapF false funs' g t rs).
Proof. induction rs as [|vs rs IH]; cbn [mapF]; [apply bm_refl|]. apply bm_bind; [apply bm_apply|]. intros v. apply bm_bind; [exact IH|]. intros ws. apply bm_refl. Qed.
Lemma eval_strict e : forall r, below_m (eval true funs e r) (eval false funs' e r).
Proof.
  induction e using expr_ind'; intros r; cbn [eval]; try (kp; fail).
  - apply bm_allM, strict_list; auto.
  - apply bm_allM, strict_list; auto.
  - kp. apply bm_mapM, strict_list; auto.
  - apply bm_bind; [|kp]. apply bm_mapM. induction H as [|[k e] fs He H IH]; cbn in *; constructor; auto. kp.
  - kp. apply bm_mapM, strict_list; auto.
  - kp. apply bm_fold.
  - apply bm_bind; [apply bm_mapM, strict_list; auto|]. intros vs. apply bm_bind; [apply bm_map|]. intros ws. apply bm_refl.
  - kp. apply bm_mapM, strict_list; auto.
  - kp. apply bm_mapM, strict_list; auto.
  - kp. apply bm_mapM, strict_list; auto.
  - kp. apply bm_mapM, strict_list; auto.
Qed.
End Strict.

(** ** Expressions *)
Section Main.
Context {HS : Type} {CH : chain HS} (E : env HS) (HE : has_std E) (sig : list (string * fsig)) (rt : ty) (L : list (ty * value * Z)) (X : Z) (HX0 : 0 <= X).
Variable funs : string -> list value -> M HS value.
Hypothesis Hhost : host_ok E.
Hypothesis Hfuns : forall f ts tr, assoc f sig = Some (ts, tr) -> fun_ok E L X funs f ts tr.
Notation impl := (impl E rt L X).
Notation sub_ok := (sub_ok E rt L X).

Definition sb (t : ty) (e : expr) : sub (HS := HS) := mksub t (frame sig e) (compile sig rt e) (eval true funs e).
Definition good (e : expr) : Prop := forall G, wt sig rt G e = true -> incl (lits e) L ->
  impl G (ty_of e) (frame sig e) (compile sig rt e) (eval true funs e).

Lemma sbs_c t es : map (@s_c HS) (map (sb t) es) = map (compile sig rt) es.
Proof. rewrite map_map. reflexivity. Qed.
Lemma sbs_m t es r : map (fun s : sub => s_m s r) (map (sb t) es) = map (fun e => eval true funs e r) es.
Proof. rewrite map_map. reflexivity. Qed.
Lemma sbs_fr t es : sfr (map (sb t) es) = fold_right (fun e n => frame sig e + n) 0 es.
Proof. induction es as [|e es IH]; [reflexivity|]. cbn [map sfr fold_right s_fr sb]. fold (sfr (map (sb t) es)). rewrite IH. reflexivity. Qed.
Lemma incl_app_l {A} (x y z : list A) : incl (x ++ y) z -> incl x z.
Proof. intros H a Ha. apply H, in_or_app. auto. Qed.
Lemma incl_app_r' {A} (x y z : list A) : incl (x ++ y) z -> incl y z.
Proof. intros H a Ha. apply H, in_or_app. auto. Qed.

(** all operands, widened to [t] *)
Lemma goods G t es (p : expr -> bool) : Forall good es -> (forall e, p e = true -> widens (ty_of e) t = true) ->
  forallb (fun e => wt sig rt G e && p e) es = true -> incl (flat_map lits es) L ->
  Forall (sub_ok G) (map (sb t) es) /\ Forall (fun s => s_t s = t) (map (sb t) es).
Proof.
  intros H Hp. induction H as [|e es He H IH]; intros HW HL; cbn [map forallb flat_map] in *; [split; constructor|].
  apply andb_prop in HW as (H1 & H2). apply andb_prop in H1 as (H1 & H3). destruct (IH H2 (incl_app_r' _ _ _ HL)) as (I1 & I2).
  split; constructor; auto. eapply impl_widen; [apply He; [exact H1|exact (incl_app_l _ _ _ HL)]|auto].
Qed.
Lemma widens_bool t : is_bool t = true -> widens t TBool = true.
Proof. destruct t; cbn; congruence. Qed.
Lemma is_bool_eq t : is_bool t = true -> t = TBool.
Proof. destruct t; cbn; congruence. Qed.
Lemma is_uint_eq t : is_uint t = true -> t = TUInt.
Proof. destruct t; cbn; congruence. Qed.

Lemma tag_opt t (f : value -> M HS value) flip : is_opt t = true ->
  (f = (fun v => match v with CSome _ => ret (CBool true) | CNone => ret (CBool false) | _ => bad end) /\ flip = false \/
   f = (fun v => match v with CSome _ => ret (CBool false) | CNone => ret (CBool true) | _ => bad end) /\ flip = true) ->
  forall m P v h rs tag w1 w2, opened m P t v tag w1 w2 -> f v h = Some rs -> rs = Done (CBool (xorb flip (tag =? 1))) h.
Proof.
  intros Ht Hf m P v h rs tag w1 w2 HO HR. destruct t; try discriminate.
  destruct v; cbn [opened] in HO; try contradiction; [subst tag|destruct HO as (-> & _)]; destruct Hf as [(-> & ->)|(-> & ->)]; cbn in HR |- *; unfold ret in HR; congruence.
Qed.
Lemma tag_resp t (f : value -> M HS value) flip : is_resp t = true ->
  (f = (fun v => match v with COk _ => ret (CBool true) | CErr _ => ret (CBool false) | _ => bad end) /\ flip = false \/
   f = (fun v => match v with COk _ => ret (CBool false) | CErr _ => ret (CBool true) | _ => bad end) /\ flip = true) ->
  forall m P v h rs tag w1 w2, opened m P t v tag w1 w2 -> f v h = Some rs -> rs = Done (CBool (xorb flip (tag =? 1))) h.
Proof.
  intros Ht Hf m P v h rs tag w1 w2 HO HR. destruct t; try discriminate.
  destruct v; cbn [opened] in HO; try contradiction; destruct HO as (-> & _); destruct Hf as [(-> & ->)|(-> & ->)]; cbn in HR |- *; unfold ret in HR; congruence.
Qed.

Ltac bsplit := repeat match goal with H : _ && _ = true |- _ => apply andb_prop in H as (? & ?) end.
Ltac lsplit := repeat match goal with H : incl (_ ++ _) _ |- _ => pose proof (incl_app_l _ _ _ H); pose proof (incl_app_r' _ _ _ H); clear H end.
Ltac use := repeat match goal with IH : good ?a, H : wt sig rt ?G ?a = true, H' : incl (lits ?a) L |- _ => pose proof (IH G H H'); clear IH end.

Theorem expr_ok e : good e.
Proof.
  induction e using expr_ind'; intros G Hwt HL; cbn [wt lits] in Hwt, HL; cbn [ty_of frame compile].
  - (* num *) bsplit. apply num_ok; auto.
  - apply bool_ok.
  - apply bytes_ok. apply HL. left; reflexivity.
  - apply none_ok; auto.
  - destruct (assoc x G) as [t0|] eqn:Ex; [|discriminate]. eapply var_ok; eauto.
  - bsplit. lsplit. use. apply seq_ok; auto.
  - bsplit. lsplit. use. apply let_ok; auto.
  - bsplit. lsplit. use. apply if_ok; auto.
    + rewrite <- (is_bool_eq (ty_of e1)) by assumption. assumption.
    + eapply impl_widen; eauto.
  - destruct (goods G TBool es (fun e => is_bool (ty_of e)) H) as (I1 & I2); auto. { intros e. apply widens_bool. }
    pose proof (short_ok E rt L X G false _ I1 I2) as K. rewrite sbs_c, sbs_fr in K. eapply impl_ext_m; [exact K|].
    intros r h. cbv beta. rewrite sbs_m. reflexivity.
  - destruct (goods G TBool es (fun e => is_bool (ty_of e)) H) as (I1 & I2); auto. { intros e. apply widens_bool. }
    pose proof (short_ok E rt L X G true _ I1 I2) as K. rewrite sbs_c, sbs_fr in K. eapply impl_ext_m; [exact K|].
    intros r h. cbv beta. rewrite sbs_m. reflexivity.
  - bsplit. lsplit. use. destruct (goods G (ty_of e) es (fun e0 => widens (ty_of e0) (ty_of e)) H) as (I1 & I2); auto.
    pose proof (eq_ok E rt L X G (ty_of e) (frame sig e) (compile sig rt e) (eval true funs e) _ (ty_okb_ok _ ltac:(eassumption)) ltac:(assumption) ltac:(assumption) I1 I2) as K. rewrite sbs_c, sbs_fr in K. eapply impl_ext_m; [exact K|].
    intros r h. cbv beta. rewrite sbs_m. reflexivity.
  - use. apply some_ok; auto.
  - use. apply ok_ok; auto.
  - use. apply err_ok; auto.
  - bsplit. destruct (ty_of e1) eqn:T1; try discriminate. bsplit. lsplit. use. rewrite T1 in *. apply match_opt_ok; auto. eapply impl_widen; eauto.
  - bsplit. destruct (ty_of e1) eqn:T1; try discriminate. bsplit. lsplit. use. rewrite T1 in *. apply match_resp_ok; auto. eapply impl_widen; eauto.
  - bsplit. lsplit. use. apply (unwrap_ok E rt L X G (ty_of e1)); auto. eapply impl_widen; eauto.
  - bsplit. lsplit. use. apply (unwrap_err_ok E rt L X G (ty_of e1)); auto. eapply impl_widen; eauto.
  - bsplit. lsplit. use. eapply asserts_ok with (pb := pure e2); auto.
    + rewrite <- (is_bool_eq (ty_of e1)) by assumption. assumption.
    + eapply impl_widen; eauto.
    + intros Hp r h w h'. apply pure_keeps. exact Hp.
  - bsplit. use. apply (try_ok E rt L X G (ty_of e)); auto.
  - bsplit. use. apply (unwrap_panic_ok E HE rt L X G (ty_of e)); auto.
  - bsplit. use. apply (unwrap_err_panic_ok E HE rt L X G (ty_of e)); auto.
  - bsplit. use. eapply (tag_ok E rt L X G (ty_of e) _ _ _ false); auto. { rewrite H0. reflexivity. } eapply tag_opt; auto.
  - bsplit. use. eapply (tag_ok E rt L X G (ty_of e) _ _ _ true); auto. { rewrite H0. reflexivity. } eapply tag_opt; auto.
  - bsplit. use. eapply (tag_ok E rt L X G (ty_of e) _ _ _ false); auto. { rewrite H0, orb_true_r. reflexivity. } eapply tag_resp; auto.
  - bsplit. use. eapply (tag_ok E rt L X G (ty_of e) _ _ _ true); auto. { rewrite H0, orb_true_r. reflexivity. } eapply tag_resp; auto.
  - bsplit. lsplit. use. destruct (ty_of e2) eqn:T2; try discriminate. apply default_ok; auto. eapply impl_widen; [eassumption|]. exact H0.
  - (* tuple *) bsplit. set (ss := map (fun f => (fst f, sb (field_ty (fst f) ts) (snd f))) fs).
    assert (HS' : Forall (fun f => sub_ok G (snd f)) ss /\ Forall (fun f => s_t (snd f) = field_ty (fst f) ts) ss).
    { clear H0 H1. subst ss. rename H2 into Hf. induction H as [|[k e] fs He H IH]; [split; constructor|]. cbn [map forallb flat_map fst snd] in *. bsplit. lsplit.
      destruct (assoc k ts) as [t|] eqn:Ek; [|discriminate]. bsplit. destruct IH as (I1 & I2); auto. split; constructor; auto. cbn [snd].
      rewrite field_ty_assoc, Ek. eapply impl_widen; [apply He; assumption|assumption]. }
    destruct HS' as (I1 & I2). pose proof (tuple_ok E rt L X G ts ss (ty_okb_ok _ ltac:(eassumption)) I1 I2) as K.
    replace (fold_right (fun f n => frame sig (snd f) + n) 0 fs) with (sfr (map snd ss)).
    2:{ subst ss. clear. induction fs as [|[k e] fs IH]; [reflexivity|]. cbn [map sfr fold_right fst snd s_fr sb]. f_equal. exact IH. }
    replace (map (fun f => (fst f, compile sig rt (snd f))) fs) with (tsubs ss).
    2:{ subst ss. unfold tsubs. rewrite map_map. reflexivity. }
    eapply impl_ext_m; [exact K|]. intros r h. cbv beta. unfold teval. subst ss. rewrite map_map. reflexivity.
  - (* get *) bsplit. destruct (ty_of e) eqn:Te; try discriminate.
    + destruct t; try discriminate. bsplit. use. rewrite Te in *. apply (get_ok E rt L X G k fs _ _ _ true); auto. apply ty_okb_ok; auto.
    + bsplit. use. rewrite Te in *. apply (get_ok E rt L X G k fs _ _ _ false); auto. apply ty_okb_ok; auto.
  - (* merge *) bsplit. lsplit. use. destruct (ty_of e1) as [| | | | | | | | | | | |ta]; try discriminate. destruct (ty_of e2) as [| | | | | | | | | | | |tb]; try discriminate. bsplit.
    apply merge_ok; auto; try (apply ty_okb_ok; assumption).
    + intros k t Hin. match goal with H : forallb (fun f => has_key (fst f) ts) ta = true |- _ => rewrite forallb_forall in H; exact (H _ Hin) end.
    + intros k t Hin. match goal with H : forallb (fun f => has_key (fst f) ts) tb = true |- _ => rewrite forallb_forall in H; exact (H _ Hin) end.
    + intros k t Hin. match goal with H : forallb _ ts = true |- _ => rewrite forallb_forall in H; specialize (H _ Hin); cbn [fst snd] in H; destruct (has_key k tb); [exact H|apply andb_prop in H; exact H] end.
  - (* list *) bsplit. destruct (goods G t es (fun e => widens (ty_of e) t) H) as (I1 & I2); auto.
    pose proof (list_ok E rt L X HX0 G n t _ (ty_okb_ok _ ltac:(eassumption)) ltac:(rewrite map_length; apply Z.leb_le; eassumption) I1 I2) as K.
    rewrite sbs_c, sbs_fr in K. eapply impl_ext_m; [exact K|]. intros r h. cbv beta. rewrite sbs_m. reflexivity.
  - bsplit. lsplit. use. eapply concat_ok; eauto; try (apply ty_okb_ok; assumption). apply Z.leb_le; assumption.
  - bsplit. lsplit. use. apply append_ok; auto; try (apply ty_okb_ok; assumption); eapply impl_widen; eauto.
  - bsplit. use. eapply max_len_ok; eauto; try (apply ty_okb_ok; assumption). split; [apply Z.leb_le; assumption|apply Z.ltb_lt; assumption].
  - bsplit. use. eapply len_ok; eauto; try (apply ty_okb_ok; assumption).
  - bsplit. lsplit. use. apply element_at_ok; auto; try (apply ty_okb_ok; assumption). rewrite <- (is_uint_eq (ty_of e2)) by assumption. assumption.
  - (* slice *) bsplit. lsplit. use. apply slice_ok; auto; try (apply ty_okb_ok; assumption); try (apply Z.ltb_lt; assumption).
    + rewrite <- (is_uint_eq (ty_of e2)) by assumption. assumption.
    + rewrite <- (is_uint_eq (ty_of e3)) by assumption. assumption.
  - (* replace *) bsplit. lsplit. use. apply replace_at_ok; auto; try (apply ty_okb_ok; assumption).
    rewrite <- (is_uint_eq (ty_of e2)) by assumption. assumption.
  - (* index *) bsplit. lsplit. use. apply index_of_ok with (pb := pure e2); auto; try (apply ty_okb_ok; assumption).
    intros Hp r h w h'. apply pure_keeps. exact Hp.
  - (* fold *) bsplit. lsplit. use. eapply (fold_ok E HE sig rt L X HX0 (proj2 Hhost) funs Hfuns G g t (ty_of e1) (ty_of e2)); auto; try (apply ty_okb_ok; assumption).
    apply negb_true_iff. assumption.
  - (* map *) bsplit. set (ss := map (fun e => sb (ty_of e) e) es).
    match goal with H : negb (has_in_memory t) = true |- _ => apply negb_true_iff in H; rename H into Hnm end.
    match goal with H : wt_fn _ _ _ _ = true |- _ => rename H into Hwf end. match goal with H : ty_okb _ = true |- _ => apply ty_okb_ok in H; rename H into Hok end.
    match goal with H : existsb _ _ = true |- _ => rename H into Hex end. match goal with H : forallb _ es = true |- _ => rename H into Hes end.
    assert (I1 : Forall (sub_ok G) ss /\ Forall (fun s => seq_ty (s_t s)) ss).
    { clear - H Hes HL. subst ss. induction H as [|e es He H IH]; [split; constructor|]. cbn [map forallb flat_map] in *. bsplit. lsplit. destruct IH as (J1 & J2); [assumption..|]. split; constructor; auto; [apply He; assumption|].
      cbn [s_t sb]. split; [assumption|]. split; [apply ty_okb_ok; assumption|]. apply Z.ltb_lt. assumption. }
    destruct I1 as (I1 & I2).
    assert (Et : map (fun s : sub (HS := HS) => elem_ty (s_t s)) ss = map (fun e => elem_ty (ty_of e)) es) by (subst ss; rewrite map_map; reflexivity).
    assert (Ee : existsb (fun s : sub (HS := HS) => seq_max (s_t s) <=? n) ss = true) by (subst ss; rewrite <- Hex; clear; induction es as [|e es IH]; [reflexivity|cbn [map existsb s_t sb]; rewrite IH; reflexivity]).
    pose proof (map_ok E HE sig rt L X HX0 (proj2 Hhost) funs Hfuns G g t n ss Hok Hnm ltac:(rewrite Et; exact Hwf) I1 I2 Ee) as K.
    replace (map (msub (HS := HS)) ss) with (map (fun e => (ty_of e, compile sig rt e)) es) in K by (subst ss; rewrite map_map; reflexivity).
    replace (has_in_memory (fn_ret sig g t)) with false.
    2:{ symmetry. destruct g; cbn [fn_ret]; try exact Hnm. cbn [wt_fn] in Hwf. unfold ret_of. destruct (assoc f sig) as [[ps tr]|]; [|discriminate]. bsplit. apply negb_true_iff. assumption. }
    rewrite Z.add_0_r. replace (fold_right (fun e n => frame sig e + n) 0 es) with (sfr ss).
    2:{ subst ss. clear. induction es as [|e es IH]; [reflexivity|]. cbn [map sfr fold_right s_fr sb]. f_equal. exact IH. }
    eapply impl_ext_m; [exact K|]. intros r h. cbv beta. subst ss. rewrite map_map. reflexivity.
  - bsplit. lsplit. use. destruct (goods G t es (fun e0 => widens (ty_of e0) t) H) as (I1 & I2); auto.
    pose proof (arith_ok_impl E HE rt L X G o t (frame sig e) (compile sig rt e) (eval true funs e) _ ltac:(assumption) (impl_widen _ _ _ _ _ _ _ _ _ _ ltac:(eassumption) ltac:(eassumption)) I1 I2) as K.
    rewrite sbs_c, sbs_fr in K. eapply impl_ext_m; [exact K|]. intros r h. cbv beta zeta. rewrite sbs_m. reflexivity.
  - (* word *) bsplit. set (ss := map (fun e => sb (ty_of e) e) es).
    assert (I1 : Forall (sub_ok G) ss).
    { clear H1. subst ss. induction H as [|e es He H IH]; [constructor|]. cbn [map forallb flat_map] in *. bsplit. lsplit. constructor; auto. apply He; auto. }
    assert (Et : map (@s_t HS) ss = map ty_of es) by (subst ss; rewrite map_map; reflexivity).
    assert (Ec : map (@s_c HS) ss = map (compile sig rt) es) by (subst ss; rewrite map_map; reflexivity).
    pose proof (word_ok E HE rt L X G w t ss I1 ltac:(rewrite Et; assumption)) as K. rewrite Et, Ec in K.
    replace (first_ty es) with (hd TNo (map ty_of es)) by (destruct es; reflexivity).
    replace (fold_right (fun e n => frame sig e + n) 0 es) with (sfr ss).
    2:{ subst ss. clear. induction es as [|e es IH]; [reflexivity|]. cbn [map sfr fold_right s_fr sb]. f_equal. exact IH. }
    eapply impl_ext_m; [exact K|]. intros r h. cbv beta. subst ss. rewrite map_map. reflexivity.
  - (* call *) destruct (assoc f sig) as [[ts tr]|] eqn:Ef; [|discriminate]. bsplit. unfold ret_of. rewrite Ef. cbn [snd].
    set (ss := map (fun p => sb (snd p) (fst p)) (combine es ts)). match goal with H : (length es =? length ts)%nat = true |- _ => apply Nat.eqb_eq in H; rename H into Hln0 end. match goal with H : forallb _ (combine es ts) = true |- _ => rename H into Hwd0 end. match goal with H : forallb (wt sig rt G) es = true |- _ => rename H into Hwt0 end.
    assert (I1 : Forall (sub_ok G) ss /\ map (@s_t HS) ss = ts /\ map (@s_c HS) ss = map (compile sig rt) es /\
      sfr ss = fold_right (fun e n => frame sig e + n) 0 es /\ forall r, map (fun s : sub => s_m s r) ss = map (fun e => eval true funs e r) es).
    { clear Ef. subst ss. revert ts Hln0 Hwd0 H0 H1 || revert ts Hln0 Hwd0. induction H as [|e es He H IH]; intros [|t0 ts] Hln Hwd; try discriminate.
      - cbn. repeat (split; [try reflexivity; constructor|]). reflexivity.
      - cbn [map forallb flat_map combine fst snd length] in *. bsplit. lsplit. injection Hln as Hln. destruct (IH ltac:(assumption) ltac:(assumption) ts Hln ltac:(assumption)) as (J1 & J2 & J3 & J4 & J5).
        split. { constructor; [|exact J1]. eapply impl_widen; [apply He; assumption|assumption]. }
        cbn [s_t sb s_c s_m sfr fold_right s_fr]. rewrite J2, J3. split; [reflexivity|]. split; [reflexivity|]. split; [f_equal; exact J4|]. intros r. rewrite J5. reflexivity. }
    destruct I1 as (I1 & Et & Ec & Ef' & Em).
    pose proof (Hfuns _ _ _ Ef) as HFok. rewrite <- Et in HFok.
    pose proof (LangCall.call_ok E rt L X HX0 funs G k f t tr ss (proj2 Hhost) ltac:(assumption) HFok ltac:(assumption) (ty_okb_ok _ ltac:(eassumption)) I1) as K. rewrite Ec, Ef' in K.
    eapply impl_ext_m; [exact K|]. intros r h. cbv beta. rewrite Em. reflexivity.
  - (* as-contract *) use. apply as_contract_ok; [exact (proj2 Hhost)|assumption].
  - (* words served by the host *) bsplit. pose proof (incl_app_l _ _ _ HL) as Hin. pose proof (incl_app_r' _ _ _ HL) as HL'. clear HL. rename HL' into HL.
    set (ss := map (fun q => sb (snd q) (fst q)) (combine es (prim_args p))). match goal with H : (length es =? _)%nat = true |- _ => apply Nat.eqb_eq in H; rename H into Hln0 end. match goal with H : forallb _ (combine es _) = true |- _ => rename H into Hwd0 end. match goal with H : forallb (wt sig rt G) es = true |- _ => rename H into Hwt0 end.
    assert (HT : prim_types p).
    { assert (K1 : forall ts, forallb ty_okb ts = true -> Forall ty_ok ts) by (intros ts; rewrite forallb_forall, Forall_forall; intros K x Hx; apply ty_okb_ok; auto).
      split; constructor; auto; [apply ty_okb_ok; assumption|]. apply Forall_forall. apply forallb_forall. assumption. }
    assert (I1 : forall ts, length es = length ts -> forallb (fun q => widens (ty_of (fst q)) (snd q)) (combine es ts) = true ->
      let ss := map (fun q => sb (snd q) (fst q)) (combine es ts) in Forall (sub_ok G) ss /\ map (@s_t HS) ss = ts /\ map (@s_c HS) ss = map (compile sig rt) es /\
      sfr ss = fold_right (fun e n => frame sig e + n) 0 es /\ forall r, map (fun s : sub => s_m s r) ss = map (fun e => eval true funs e r) es).
    { clear - H Hwt0 HL. induction H as [|e es He H IH]; intros [|t0 ts] Hln Hwd; try discriminate.
      - cbn. repeat (split; [try reflexivity; constructor|]). reflexivity.
      - cbn [map forallb flat_map combine fst snd length] in *. bsplit. lsplit. injection Hln as Hln. destruct (IH ltac:(assumption) ltac:(assumption) ts Hln ltac:(assumption)) as (J1 & J2 & J3 & J4 & J5).
        split. { constructor; [|exact J1]. eapply impl_widen; [apply He; assumption|assumption]. }
        cbn [s_t sb s_c s_m sfr fold_right s_fr]. rewrite J2, J3. split; [reflexivity|]. split; [reflexivity|]. split; [f_equal; exact J4|]. intros r. rewrite J5. reflexivity. }
    destruct (I1 _ Hln0 Hwd0) as (J1 & Et & Ec & Ef' & Em). fold ss in J1, Et, Ec, Ef', Em.
    pose proof (prim_ok E rt L X HX0 Hhost G p ss HT Hin J1 Et) as K. rewrite Ec, Ef' in K.
    eapply impl_ext_m; [exact K|]. intros r h. cbv beta. rewrite Em. reflexivity.
Qed.
End Main.

(** ** Functions *)
Lemma add_locals_seq ts : forall l is l', add_locals ts l = (is, l') -> is = seq (llen l) (length ts) /\ llen l' = (llen l + length ts)%nat.
Proof.
  induction ts as [|t ts IH]; intros l is l' H; cbn in H.
  - injection H as <- <-. cbn. split; [reflexivity|lia].
  - destruct (add_locals ts _) as [js l2] eqn:E2. pose proof (f_equal fst H) as H1; pose proof (f_equal snd H) as H2; cbn [fst snd] in H1, H2; subst is l2.
    destruct (IH _ _ _ E2) as (I1 & I2). unfold llen in *. cbn [l_tys] in *. rewrite app_length in *. cbn [length] in *. cbn [seq].
    split; [f_equal; rewrite I1; f_equal; lia|lia].
Qed.
Lemma lvals_seq ws : forall pre post, lvals (pre ++ ws ++ post) (seq (length pre) (length ws)) ws.
Proof.
  induction ws as [|w ws IH]; intros pre post; [constructor|]. cbn [length seq]. constructor.
  - rewrite nth_error_app2, Nat.sub_diag by lia. reflexivity.
  - specialize (IH (pre ++ [w]) post). rewrite <- app_assoc in IH. cbn [app] in IH. rewrite app_length in IH. cbn [length] in IH.
    replace (length pre + 1)%nat with (S (length pre)) in IH by lia. exact IH.
Qed.

Section Defs.
Context {HS : Type} {CH : chain HS} (E : env HS) (HE : has_std E) (Hhost : host_ok E) (L : list (ty * value * Z)).

Lemma params_ok m P ps : forall l B l' vs ws pre post, param_locals ps l = (B, l') -> lwf l -> length pre = llen l ->
  rep_list m P (map snd ps) vs ws -> Forall2 has_type (map snd ps) vs ->
  lext l l' /\ llen l' = (llen l + length (param_types ps))%nat /\
  bdyn ps B (combine (map fst ps) vs) m P l' (pre ++ ws ++ post).
Proof.
  induction ps as [|[x t] ps IH]; intros l B l' vs ws pre post H Hw Hp Hr Ht; cbn [param_locals] in H.
  - injection H as <- <-. cbn. split; [apply lext_refl; auto|]. split; [lia|]. intros y u Hy. discriminate.
  - destruct (add_locals (clar2wasm_ty t) l) as [is l1] eqn:Ea. destruct (param_locals ps l1) as [B1 l2] eqn:Ep. injection H as <- <-.
    destruct (add_locals_ok _ _ _ _ Ea Hw) as (A1 & A2 & _). destruct (add_locals_seq _ _ _ _ Ea) as (S1 & S2).
    cbn [map snd] in Hr, Ht. inversion Hr as [|t' ts v vs' w ws' R1 R2]; subst. inversion Ht; subst.
    pose proof (rep_len _ _ _ _ _ R1) as Hwl.
    destruct (IH l1 B1 l2 vs' ws' (pre ++ w) post Ep (lext_wf _ _ A1)) as (I1 & I2 & I3); auto.
    { rewrite app_length. lia. }
    split; [eapply lext_trans; eauto|]. split. { rewrite I2, S2. cbn [param_types flat_map snd]. fold (param_types ps). rewrite app_length. lia. }
    rewrite <- !app_assoc in I3 |- *. intros y u Hy. cbn [assoc map fst combine] in *. destruct (String.eqb x y) eqn:Exy.
    + injection Hy as <-. exists (seq (llen l) (length (clar2wasm_ty t))), v, w. split; [reflexivity|]. split.
      { eapply Forall_impl; [|exact A2]. intros i. apply lext_live; auto. }
      split; [reflexivity|]. split; [|split; auto]. rewrite <- Hp, <- Hwl. apply lvals_seq.
    + exact (I3 y u Hy).
Qed.

Lemma fun_ok_more funs f ts tr X X' : fun_ok E L X funs f ts tr -> X <= X' -> fun_ok E L X' funs f ts tr.
Proof.
  intros (H1 & H2) HX. split; auto. intros vs ws st sp F rs A1 A2 A3 A4 A5 A6 A7 A8 A9 A10. eapply H2; eauto. lia.
Qed.
Lemma fun_ok_ext funs funs' f ts tr X : fun_ok E L X funs f ts tr -> (forall vs h, funs' f vs h = funs f vs h) -> fun_ok E L X funs' f ts tr.
Proof.
  intros (H1 & H2) HX. split; auto. intros vs ws st sp F rs A1 A2 A3 A4 A5 A6 A7 A8 A9 A10. eapply H2; eauto. rewrite <- HX. exact A10.
Qed.

Lemma body_ok X f ps tr fr (c0 : frag) (m0 : venv -> M HS value) : 0 <= X -> impl E tr L X ps tr fr c0 m0 -> efun E f = Some (define_body ps tr c0) ->
  forall funs', (forall vs h, funs' f vs h = as_fun (m0 (combine (map fst ps) vs)) h) ->
  fun_ok E L (fr + X) funs' f (map snd ps) tr.
Proof.
  intros HX0 HI HE' funs' Hf'.
  unfold define_body in HE'. destruct (param_locals ps empty_l) as [B l0] eqn:Ep. destruct (add_local T32 l0) as [fp l1] eqn:Ea.
  destruct (c0 0%nat B l1) as [c l2] eqn:Ec.
  assert (Hpt : param_types ps = flat_map clar2wasm_ty (map snd ps)).
  { unfold param_types. rewrite !flat_map_concat_map, map_map. reflexivity. }
  split.
  { unfold fun_arity. rewrite HE'. cbn [fparams]. rewrite Hpt. reflexivity. }
  intros vs ws st sp F rs A1 A2 A3 A4 A5 A6 ACap A7 A8 A9. rewrite Hf' in A9. unfold as_fun in A9.
  destruct (m0 (combine (map fst ps) vs) (shost st)) as [rs0|] eqn:Ev; [|discriminate].
  eapply wpf_intro; [exact HE'|]. cbn [fbody flocals fresults].
  set (zs := map zero_of (skipn (length (param_types ps)) (l_tys l2))).
  assert (Hw0 : lwf empty_l) by (split; constructor).
  destruct (params_ok (smem st) (vis F sp) ps empty_l B l0 vs ws [] zs Ep Hw0 eq_refl A7 A8) as (X0 & N0 & HB). cbn [app] in HB.
  destruct (add_ok _ _ _ _ Ea (lext_wf _ _ X0)) as (X1 & L1 & NL1).
  destruct HI as (Hfr & HI). destruct (HI _ _ _ _ _ Ec (lext_wf _ _ X1)) as (X2 & Hrun).
  pose proof (rep_list_len _ _ _ _ _ A7) as Hwl. rewrite <- Hpt in Hwl.
  assert (Hlen : (llen l2 <= length (ws ++ zs))%nat).
  { unfold zs. rewrite app_length, map_length, skipn_length, Hwl. unfold llen. lia. }
  eapply wp_gget; [exact A1|]. apply wp_lset. apply wp_block. unfold setstk. cbn [clocals cstack cstore firstn skipn].
  set (ls1 := lset (ws ++ zs) fp (VI32 sp)).
  assert (Hlen1 : length ls1 = length (ws ++ zs)) by apply lset_len.
  assert (K1 : lkeep l0 (ws ++ zs) ls1) by (apply lkeep_lset; exact NL1).
  assert (Hfp : nth_error ls1 fp = Some (VI32 sp)). { apply lset_same. destruct L1 as (L1 & _). pose proof (lext_len _ _ X2). lia. }
  rewrite <- (app_nil_r c).
  assert (HC : ctx L X ps B (combine (map fst ps) vs) F l1 ls1 st sp fr).
  { constructor; auto; [lia|]. eapply bdyn_move; [exact HB|exact X1|exact K1|reflexivity|reflexivity|auto]. }
  (* leaving the block with the value on the stack *)
  assert (Hend : forall v h ls' st' sp' ws' k, gives F tr v h l1 ls1 st sp fr ls' st' sp' ws' ->
    rs = Done v h ->
    cont E [LGet fp; GSet "stack-pointer"] (qfunc (length (clar2wasm_ty tr)) (fun r => match rs with
      | Done v h => exists ws' st', r = RVals ws' st' /\ below sp (smem st) (smem st') /\ (forall n, gget (sglob st') n = gget (sglob st) n) /\
          shost st' = h /\ rep (smem st') F tr v ws' /\ has_type tr v
      | Abort c => (exists st', r = RTrap TUnreachable st' /\ gget (sglob st') "runtime-error-code" = Some (VI32 c)) \/
          (exists st', r = RTrap THost st' /\ c = err_host)
      | Early _ _ => False
      end)) (ONormal (mkcfg ls' (firstn (length (clar2wasm_ty tr)) (rev ws' ++ k)) st'))).
  { intros v h ls' st' sp' ws' k [[M1 M2 M3 M4 M5] G2 G3 G4] ->. cbn [cont].
    pose proof (rep_len _ _ _ _ _ G2) as Hwl'. rewrite <- Hwl', <- (rev_length ws'), firstn_app, Nat.sub_diag, firstn_O, app_nil_r, firstn_all.
    eapply wp_lget. { rewrite (lkeep_get _ _ _ _ M1 L1). exact Hfp. }
    apply wp_gset. apply wp_nil. unfold qfunc, exit_func. cbn [cstack cstore]. rewrite rev_involutive.
    eexists ws', _. split; [reflexivity|]. cbn [smem sglob shost with_glob]. split; [exact M2|]. split.
    { intros n. destruct (String.eqb_spec n "stack-pointer") as [->|Hn].
      - rewrite A1. eapply gget_set. exact M3.
      - rewrite gget_set_other by exact Hn. apply M4. exact Hn. }
    split; [exact G4|]. split; [|exact G3]. eapply rep_weaken; [|exact G2]. intros a (_ & Ha). exact Ha. }
  eapply Hrun; [exact Ev|exact HC|lia| |].
  - destruct rs0 as [v h|v h|code]; cbn [exits]; [exact I| |].
    + intros ls' st' sp' ws' k' HG. unfold qblock. cbn [exit_block]. unfold setstk. cbn [clocals cstack cstore]. rewrite app_nil_r.
      eapply Hend; [exact HG|congruence].
    + injection A9 as <-. unfold qblock. split; [intros st' Hc|intros Hc st']; cbn [exit_block cont]; unfold qfunc; cbn [exit_func]; [left|right]; exists st'; auto.
  - intros v h ls' st' sp' ws' -> HG. apply wp_nil. unfold qblock. cbn [exit_block]. unfold setstk. cbn [clocals cstack cstore]. rewrite !app_nil_r.
    pose proof (Hend v h ls' st' sp' ws' [] HG ltac:(congruence)) as K. rewrite app_nil_r in K.
    pose proof (rep_len _ _ _ _ _ (g_rep _ _ _ _ _ _ _ _ _ _ _ _ _ HG)) as Hwl'. rewrite <- Hwl', <- (rev_length ws'), firstn_all in K. rewrite <- Hwl'. rewrite <- (rev_length ws'). exact K.
Qed.
Lemma def_ok sig X funs (d : fundef) : 0 <= X -> (forall f ts tr, assoc f sig = Some (ts, tr) -> fun_ok E L X funs f ts tr) ->
  wt sig (fd_ret d) (fd_params d) (fd_body d) = true -> widens (ty_of (fd_body d)) (fd_ret d) = true -> incl (lits (fd_body d)) L ->
  efun E (fd_name d) = Some (define_function sig d) ->
  forall funs', (forall vs h, funs' (fd_name d) vs h = as_fun (eval true funs (fd_body d) (combine (map fst (fd_params d)) vs)) h) ->
  fun_ok E L (frame sig (fd_body d) + X) funs' (fd_name d) (map snd (fd_params d)) (fd_ret d).
Proof.
  intros HX0 Hfuns Hwt Hwd HL HE' funs' Hf'.
  pose proof (impl_widen _ _ _ _ _ _ _ _ _ _ (expr_ok E HE sig (fd_ret d) L X HX0 funs Hhost Hfuns (fd_body d) (fd_params d) Hwt HL) Hwd) as HI.
  eapply body_ok; [exact HX0|exact HI|exact HE'|exact Hf'].
Qed.
End Defs.

(** ** Programs *)
Section Prog.
Context {HS : Type} {CH : chain HS} (E : env HS) (HE : has_std E) (Hhost : host_ok E) (L : list (ty * value * Z)).

Lemma sig_name ds f ts tr : assoc f (prog_sig ds) = Some (ts, tr) -> has_key f (map (fun d => (fd_name d, fd_ret d)) ds) = true.
Proof.
  unfold has_key. induction ds as [|d ds IH]; cbn [prog_sig map assoc def_sig]; [discriminate|]. destruct (String.eqb (fd_name d) f); auto.
Qed.
Lemma prog_ok ds : wt_prog ds = true -> incl (prog_lits ds) L -> (forall f fn, assoc f (compile_defs ds) = Some fn -> efun E f = Some fn) ->
  0 <= frames ds /\ forall f ts tr, assoc f (prog_sig ds) = Some (ts, tr) -> fun_ok E L (frames ds) (run_defs true ds) f ts tr.
Proof.
  induction ds as [|d ds IH]; intros Hwt HL HF; cbn [wt_prog frames prog_lits flat_map compile_defs] in *; try change (map def_sig ds) with (prog_sig ds) in *.
  - split; [lia|]. intros f ts tr H. discriminate.
  - repeat match goal with H : _ && _ = true |- _ => apply andb_prop in H as (? & ?) end. pose proof (incl_app_l _ _ _ HL) as HL1. pose proof (incl_app_r' _ _ _ HL) as HL2.
    match goal with H : negb _ = true |- _ => apply negb_true_iff in H; rename H into Hnew end.
    assert (HF' : forall f fn, assoc f (compile_defs ds) = Some fn -> efun E f = Some fn).
    { intros f fn Hf. apply HF. cbn [assoc]. destruct (String.eqb_spec (fd_name d) f) as [Heq|]; [|exact Hf]. exfalso. subst f.
      assert (K : has_key (fd_name d) (map (fun d => (fd_name d, fd_ret d)) ds) = true).
      { revert Hf. generalize (fd_name d) as f. clear. intros f. unfold has_key. induction ds as [|d ds IH]; cbn [compile_defs map assoc]; [discriminate|]. destruct (String.eqb (fd_name d) f); auto. }
      congruence. }
    destruct (IH ltac:(assumption) HL2 HF') as (I1 & I2).
    assert (I0 : 0 <= frame (prog_sig ds) (fd_body d)).
    { eapply impl_fr. eapply (expr_ok E HE (prog_sig ds) (fd_ret d) L (frames ds) I1 (run_defs true ds)); [exact Hhost|exact I2|eassumption|exact HL1]. }
    split; [lia|]. intros f ts tr Hf. cbn [prog_sig map assoc] in Hf. fold (prog_sig ds) in Hf. unfold def_sig in Hf at 1. destruct (String.eqb_spec (fd_name d) f) as [<-|Hne].
    + injection Hf as <- <-. eapply def_ok with (funs := run_defs true ds); auto.
      * apply HF. cbn [assoc]. rewrite String.eqb_refl. reflexivity.
      * intros vs h. cbn [run_defs]. rewrite String.eqb_refl. reflexivity.
    + eapply fun_ok_ext; [eapply fun_ok_more; [exact (I2 _ _ _ Hf)|lia]|]. intros vs h. cbn [run_defs].
      destruct (String.eqb_spec (fd_name d) f); [contradiction|reflexivity].
Qed.
End Prog.

Lemma run_strict {HS} {CH : chain HS} ds : forall f vs, below_m (HS := HS) (run_defs true ds f vs) (run_defs false ds f vs).
Proof.
  induction ds as [|d ds IH]; intros f vs; cbn [run_defs]; [apply bm_refl|]. destruct (String.eqb (fd_name d) f); [|apply IH].
  intros h x H. unfold as_fun in *. destruct (eval true (run_defs true ds) (fd_body d) (combine (map fst (fd_params d)) vs) h) as [y|] eqn:Ev; [|discriminate].
  rewrite (eval_strict _ _ IH _ _ _ _ Ev). exact H.
Qed.
