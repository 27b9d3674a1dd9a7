(** * What an evaluation does to the chain state (proof support)

    A relation between the chain states before and after that holds of every host word
    and of everything inside a scope holds of every evaluation. *)
From Coq Require Import ZArith String List Bool Lia.
Import ListNotations.
From Verif Require Import Clar Ast SpecLang.
Open Scope Z_scope.

Section Trace.
Context {HS : Type} {CH : chain HS} (R : HS -> HS -> Prop).
Hypothesis R_refl : forall h, R h h.
Hypothesis R_trans : forall a b c, R a b -> R b c -> R a c.
Hypothesis R_op : forall p vs h, match chain_op p vs h with Some (Done _ h') | Some (Early _ h') => R h h' | _ => True end.
Hypothesis R_scope : forall s keep h h1 h2 h3, chain_open s h = Some h1 -> R h1 h2 -> chain_close s keep h2 = Some h3 -> R h h3.

Definition follows {A} (m : M HS A) : Prop := forall h, match m h with Some (Done _ h') | Some (Early _ h') => R h h' | _ => True end.
Lemma f_ret {A} (a : A) : follows (ret a). Proof. intros h. apply R_refl. Qed.
Lemma f_early {A} v : follows (early (A := A) v). Proof. intros h. apply R_refl. Qed.
Lemma f_abort {A} c : follows (abort (A := A) c). Proof. intros h. exact I. Qed.
Lemma f_bad {A} : follows (bad (A := A)). Proof. intros h. exact I. Qed.
Lemma f_bind {A B} (m : M HS A) (f : A -> M HS B) : follows m -> (forall a, follows (f a)) -> follows (bind m f).
Proof.
  intros Hm Hf h. specialize (Hm h). unfold bind. destruct (m h) as [rs|]; [|exact I]. destruct rs as [a h'|v h'|c]; [|exact Hm|exact I].
  specialize (Hf a h'). destruct (f a h') as [rs|]; [|exact I]. destruct rs; [eapply R_trans; eassumption..|exact I].
Qed.
Lemma f_opt {A} (o : option A) : follows (of_opt o). Proof. destruct o; [apply f_ret|apply f_bad]. Qed.
Lemma f_sum o : follows (of_sum o). Proof. destruct o; [apply f_ret|apply f_abort]. Qed.
Lemma f_mapM {A} (ms : list (M HS A)) : Forall follows ms -> follows (mapM ms).
Proof. induction 1; cbn [mapM]; [apply f_ret|]. apply f_bind; [assumption|]. intros a. apply f_bind; [assumption|]. intros ?; apply f_ret. Qed.
Lemma f_allM stop (ms : list (M HS value)) : Forall follows ms -> follows (allM stop ms).
Proof.
  induction 1; cbn [allM]; [apply f_ret|]. apply f_bind; [assumption|]. intros a. destruct a; try apply f_bad. destruct (Bool.eqb b stop); [apply f_ret|auto].
Qed.

Variables (strict : bool) (funs : string -> list value -> M HS value) (HF : forall f vs, follows (funs f vs)).
Lemma f_unless {A} b (m : M HS A) : follows m -> follows (unless strict b m).
Proof. intros Hm h. unfold unless. destruct (strict && b h); [exact I|apply Hm]. Qed.
Lemma f_scoped s (m : M HS value) : follows m -> follows (scoped strict s m).
Proof.
  intros Hm h. unfold scoped. destruct (chain_open s h) as [h1|] eqn:Ho; [|exact I]. specialize (Hm h1). destruct (m h1) as [rs|]; [|exact I]. destruct rs as [v h2|v h2|c]; [| |exact I].
  - destruct (chain_close s (is_ok v) h2) as [h3|] eqn:Hc; [|exact I]. eapply R_scope; eassumption.
  - destruct strict; [exact I|]. destruct (chain_close s (is_ok v) h2) as [h3|] eqn:Hc; [|exact I]. eapply R_scope; eassumption.
Qed.
Lemma f_called k (m : M HS value) : follows m -> follows (called_as strict k m).
Proof. unfold called_as. destruct (kind_scope k); [apply f_scoped|auto]. Qed.
Lemma f_foldA o t vs : forall v, follows (foldA (HS := HS) o t v vs).
Proof. induction vs as [|x vs IH]; intros v; cbn [foldA]; [apply f_ret|]. destruct (num_of t v); [|apply f_bad]. destruct (num_of t x); [|apply f_bad]. apply f_bind; [apply f_sum|exact IH]. Qed.
Lemma f_arith o t v vs : follows (arithM (HS := HS) o t v vs).
Proof. unfold arithM. destruct vs; [|apply f_foldA]. destruct (num_of t v); [apply f_sum|apply f_bad]. Qed.
Ltac fo := repeat first [apply f_ret|apply f_early|apply f_abort|apply f_bad|apply f_opt|apply f_sum|apply f_arith|apply f_unless|apply f_scoped|apply f_called|solve [auto]
  |match goal with |- follows (bind _ _) => apply f_bind end
  |match goal with |- forall _, _ => intros ? end|match goal with |- follows (match ?x with _ => _ end) => destruct x end].
Lemma f_apply g t vs : follows (apply_fn strict funs g t vs).
Proof. destruct g; cbn [apply_fn]; fo. Qed.
Lemma f_fold g t xs : forall acc, follows (foldF strict funs g t xs acc).
Proof. induction xs as [|x xs IH]; intros acc; cbn [foldF]; [apply f_ret|]. apply f_bind; [apply f_apply|exact IH]. Qed.
Lemma f_map g t rs : follows (mapF strict funs g t rs).
Proof. induction rs as [|vs rs IH]; cbn [mapF]; [apply f_ret|]. apply f_bind; [apply f_apply|]. intros v. apply f_bind; [exact IH|]. intros ws. apply f_ret. Qed.
Lemma f_list es r : Forall (fun e => forall r, follows (eval strict funs e r)) es -> Forall follows (map (fun e => eval strict funs e r) es).
Proof. induction 1 as [|e es He H IH]; cbn; constructor; auto. Qed.
Theorem eval_follows e : forall r, follows (eval strict funs e r).
Proof.
  induction e using expr_ind'; intros r; cbn [eval]; try (fo; fail).
  - apply f_allM, f_list; auto.
  - apply f_allM, f_list; auto.
  - fo. apply f_mapM, f_list; auto.
  - apply f_bind; [|fo]. apply f_mapM. induction H as [|[k e] fs He H IH]; cbn in *; constructor; auto. fo.
  - fo. apply f_mapM, f_list; auto.
  - fo. apply f_fold.
  - apply f_bind; [apply f_mapM, f_list; auto|]. intros vs. apply f_bind; [apply f_map|]. intros ws. apply f_ret.
  - cbv zeta. fo. apply f_mapM, f_list; auto.
  - fo. apply f_mapM, f_list; auto.
  - fo. apply f_mapM, f_list; auto.
  - apply f_bind; [apply f_mapM, f_list; auto|]. intros vs h. apply R_op.
Qed.
End Trace.

Theorem run_follows {HS} {CH : chain HS} (R : HS -> HS -> Prop) :
  (forall h, R h h) -> (forall a b c, R a b -> R b c -> R a c) ->
  (forall p vs h, match chain_op p vs h with Some (Done _ h') | Some (Early _ h') => R h h' | _ => True end) ->
  (forall s keep h h1 h2 h3, chain_open s h = Some h1 -> R h1 h2 -> chain_close s keep h2 = Some h3 -> R h h3) ->
  forall strict ds f vs, follows R (run_defs strict ds f vs).
Proof.
  intros H1 H2 H3 H4 strict ds. induction ds as [|d ds IH]; intros f vs; cbn [run_defs]; [apply f_bad|]. destruct (String.eqb (fd_name d) f); [|apply IH].
  intros h. unfold as_fun. pose proof (eval_follows R H1 H2 H3 H4 strict (run_defs strict ds) IH (fd_body d) (combine (map fst (fd_params d)) vs) h) as K.
  destruct (eval strict (run_defs strict ds) (fd_body d) (combine (map fst (fd_params d)) vs) h) as [rs|]; [|exact I]. destruct rs; exact K.
Qed.
