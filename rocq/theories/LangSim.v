(** * Evaluations over two chains that correspond (proof support)

    If every host word and every scope over one chain is matched by the other one, so is
    every evaluation. *)
From Coq Require Import ZArith String List Bool Lia.
Import ListNotations.
From Verif Require Import Clar Ast SpecLang.
Open Scope Z_scope.

Section Sim.
Context {H1 H2 : Type} {C1 : chain H1} {C2 : chain H2} (R : H1 -> H2 -> Prop).
Definition matched {A} (x : option (res H1 A)) (y : option (res H2 A)) : Prop :=
  match x with
  | None => True
  | Some (Done a h) => exists h', y = Some (Done a h') /\ R h h'
  | Some (Early v h) => exists h', y = Some (Early v h') /\ R h h'
  | Some (Abort c) => y = Some (Abort c)
  end.
Hypothesis R_op : forall p vs h h', R h h' -> matched (chain_op (chain := C1) p vs h) (chain_op (chain := C2) p vs h').
Hypothesis R_open : forall s h h' h1, R h h' -> chain_open (chain := C1) s h = Some h1 -> exists h1', chain_open (chain := C2) s h' = Some h1' /\ R h1 h1'.
Hypothesis R_close : forall s keep h h' h1, R h h' -> chain_close (chain := C1) s keep h = Some h1 -> exists h1', chain_close (chain := C2) s keep h' = Some h1' /\ R h1 h1'.
Definition sim {A} (m : M H1 A) (m' : M H2 A) : Prop := forall h h', R h h' -> matched (m h) (m' h').
Lemma s_ret {A} (a : A) : sim (ret a) (ret a). Proof. intros h h' Hh. exists h'. auto. Qed.
Lemma s_early {A} v : sim (early (A := A) v) (early v). Proof. intros h h' Hh. exists h'. auto. Qed.
Lemma s_abort {A} c : sim (abort (A := A) c) (abort c). Proof. intros h h' Hh. reflexivity. Qed.
Lemma s_bad {A} m : sim (bad (A := A)) m. Proof. intros h h' Hh. exact I. Qed.
Lemma s_bind {A B} (m : M H1 A) m' (f : A -> M H1 B) f' : sim m m' -> (forall a, sim (f a) (f' a)) -> sim (bind m f) (bind m' f').
Proof.
  intros Hm Hf h h' Hh. specialize (Hm h h' Hh). unfold bind. destruct (m h) as [[a h1|v h1|c]|]; cbn [matched] in Hm; [| | |exact I].
  - destruct Hm as (h1' & -> & Hh1). exact (Hf a h1 h1' Hh1).
  - destruct Hm as (h1' & -> & Hh1). exists h1'. auto.
  - rewrite Hm. reflexivity.
Qed.
Lemma s_opt {A} (o : option A) : sim (of_opt o) (of_opt o). Proof. destruct o; [apply s_ret|apply s_bad]. Qed.
Lemma s_sum o : sim (of_sum o) (of_sum o). Proof. destruct o; [apply s_ret|apply s_abort]. Qed.
Lemma s_mapM {A} (ms : list (M H1 A)) ms' : Forall2 sim ms ms' -> sim (mapM ms) (mapM ms').
Proof. induction 1; cbn [mapM]; [apply s_ret|]. apply s_bind; [assumption|]. intros a. apply s_bind; [assumption|]. intros ?; apply s_ret. Qed.
Lemma s_allM stop (ms : list (M H1 value)) ms' : Forall2 sim ms ms' -> sim (allM stop ms) (allM stop ms').
Proof.
  induction 1; cbn [allM]; [apply s_ret|]. apply s_bind; [assumption|]. intros a. destruct a; try apply s_bad. destruct (Bool.eqb b stop); [apply s_ret|auto].
Qed.
Variables (funs : string -> list value -> M H1 value) (funs' : string -> list value -> M H2 value) (HF : forall f vs, sim (funs f vs) (funs' f vs)).
Lemma s_unless {A} b b' (m : M H1 A) m' : sim m m' -> sim (unless false b m) (unless false b' m').
Proof. intros Hm h h' Hh. unfold unless. cbn [andb]. apply Hm, Hh. Qed.
Lemma s_scoped s (m : M H1 value) m' : sim m m' -> sim (scoped false s m) (scoped false s m').
Proof.
  intros Hm h h' Hh. unfold scoped. destruct (chain_open s h) as [h1|] eqn:Ho; [|exact I]. destruct (R_open _ _ _ _ Hh Ho) as (h1' & -> & Hh1).
  specialize (Hm h1 h1' Hh1). destruct (m h1) as [[v h2|v h2|c]|]; cbn [matched] in Hm; [| | |exact I].
  - destruct Hm as (h2' & -> & Hh2). destruct (chain_close s (is_ok v) h2) as [h3|] eqn:Hc; [|exact I]. destruct (R_close _ _ _ _ _ Hh2 Hc) as (h3' & -> & Hh3). exists h3'. auto.
  - destruct Hm as (h2' & -> & Hh2). destruct (chain_close s (is_ok v) h2) as [h3|] eqn:Hc; [|exact I]. destruct (R_close _ _ _ _ _ Hh2 Hc) as (h3' & -> & Hh3). exists h3'. auto.
  - rewrite Hm. reflexivity.
Qed.
Lemma s_called k (m : M H1 value) m' : sim m m' -> sim (called_as false k m) (called_as false k m').
Proof. unfold called_as. destruct (kind_scope k); [apply s_scoped|auto]. Qed.
Lemma s_foldA o t vs : forall v, sim (foldA o t v vs) (foldA o t v vs).
Proof. induction vs as [|x vs IH]; intros v; cbn [foldA]; [apply s_ret|]. destruct (num_of t v); [|apply s_bad]. destruct (num_of t x); [|apply s_bad]. apply s_bind; [apply s_sum|exact IH]. Qed.
Lemma s_arith o t v vs : sim (arithM o t v vs) (arithM o t v vs).
Proof. unfold arithM. destruct vs; [|apply s_foldA]. destruct (num_of t v); [apply s_sum|apply s_bad]. Qed.
Ltac sm := repeat first [apply s_ret|apply s_early|apply s_abort|apply s_bad|apply s_opt|apply s_sum|apply s_arith|apply s_unless|apply s_scoped|apply s_called|solve [auto]
  |match goal with |- sim (bind _ _) _ => apply s_bind end
  |match goal with |- forall _, _ => intros ? end|match goal with |- sim (match ?x with _ => _ end) _ => destruct x end].
Lemma s_apply g t vs : sim (apply_fn false funs g t vs) (apply_fn false funs' g t vs).
Proof. destruct g; cbn [apply_fn]; sm. Qed.
Lemma s_fold g t xs : forall acc, sim (foldF false funs g t xs acc) (foldF false funs' g t xs acc).
Proof. induction xs as [|x xs IH]; intros acc; cbn [foldF]; [apply s_ret|]. apply s_bind; [apply s_apply|exact IH]. Qed.
Lemma s_map g t rs : sim (mapF false funs g t rs) (mapF false funs' g t rs).
Proof. induction rs as [|vs rs IH]; cbn [mapF]; [apply s_ret|]. apply s_bind; [apply s_apply|]. intros v. apply s_bind; [exact IH|]. intros ws. apply s_ret. Qed.
Lemma s_list es r : Forall (fun e => forall r, sim (eval false funs e r) (eval false funs' e r)) es ->
  Forall2 sim (map (fun e => eval false funs e r) es) (map (fun e => eval false funs' e r) es).
Proof. induction 1 as [|e es He H IH]; cbn; constructor; auto. Qed.
Theorem eval_sim e : forall r, sim (eval false funs e r) (eval false funs' e r).
Proof.
  induction e using expr_ind'; intros r; cbn [eval]; try (sm; fail).
  - apply s_allM, s_list; auto.
  - apply s_allM, s_list; auto.
  - sm. apply s_mapM, s_list; auto.
  - apply s_bind; [|sm]. apply s_mapM. induction H as [|[k e] fs He H IH]; cbn in *; constructor; auto. sm.
  - sm. apply s_mapM, s_list; auto.
  - sm. apply s_fold.
  - apply s_bind; [apply s_mapM, s_list; auto|]. intros vs. apply s_bind; [apply s_map|]. intros ws. apply s_ret.
  - cbv zeta. sm. apply s_mapM, s_list; auto.
  - sm. apply s_mapM, s_list; auto.
  - sm. apply s_mapM, s_list; auto.
  - apply s_bind; [apply s_mapM, s_list; auto|]. intros vs h h' Hh. apply R_op, Hh.
Qed.
End Sim.
Theorem run_sim {H1 H2} {C1 : chain H1} {C2 : chain H2} (R : H1 -> H2 -> Prop) :
  (forall p vs h h', R h h' -> matched R (chain_op (chain := C1) p vs h) (chain_op (chain := C2) p vs h')) ->
  (forall s h h' h1, R h h' -> chain_open (chain := C1) s h = Some h1 -> exists h1', chain_open (chain := C2) s h' = Some h1' /\ R h1 h1') ->
  (forall s keep h h' h1, R h h' -> chain_close (chain := C1) s keep h = Some h1 -> exists h1', chain_close (chain := C2) s keep h' = Some h1' /\ R h1 h1') ->
  forall ds f vs, sim R (run_defs (CH := C1) false ds f vs) (run_defs (CH := C2) false ds f vs).
Proof.
  intros Hop Hopen Hclose. induction ds as [|d ds IH]; intros f vs; cbn [run_defs]; [apply s_bad|]. destruct (String.eqb (fd_name d) f); [|apply IH].
  intros h h' Hh. unfold as_fun. pose proof (eval_sim R Hop Hopen Hclose _ _ IH (fd_body d) (combine (map fst (fd_params d)) vs) h h' Hh) as K.
  destruct (eval (CH := C1) false _ _ _ h) as [[v h1|v h1|c]|]; cbn [matched] in *; [| | |exact I].
  - destruct K as (h1' & -> & K). exists h1'. auto.
  - destruct K as (h1' & -> & K). exists h1'. auto.
  - rewrite K. reflexivity.
Qed.
