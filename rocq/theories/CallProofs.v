(** * Exact behaviour of the call sequences: what is kept, what is undone. *)
From Coq Require Import ZArith String List Bool Lia Arith.
Import ListNotations.
From Verif Require Import Wasm StdEnv WasmLogic Clar Codec Ledger Invar Calls.
Open Scope Z_scope.

(** ** Locals *)
Lemma lset_len ls n v : length (lset ls n v) = length ls.
Proof. revert n; induction ls; intros [|n]; cbn; auto. Qed.
Lemma lset_same ls n v : (n < length ls)%nat -> nth_error (lset ls n v) n = Some v.
Proof. revert n; induction ls; intros [|n]; cbn; intro; try lia; auto. apply IHls. lia. Qed.
Lemma lset_other ls n k v : k <> n -> nth_error (lset ls n v) k = nth_error ls k.
Proof. revert n k; induction ls; intros [|n] [|k]; cbn; intro; auto; try congruence. Qed.

Definition setl (ls : list val) (ns : list nat) (vs : list val) : list val :=
  fold_right (fun nv ls => lset ls (fst nv) (snd nv)) ls (combine ns vs).

Lemma setl_len ls ns vs : length (setl ls ns vs) = length ls.
Proof.
  unfold setl. induction (combine ns vs) as [|x l IH]; cbn; [reflexivity|]. rewrite lset_len. exact IH.
Qed.
Lemma setl_other ls ns vs k : ~ In k ns -> nth_error (setl ls ns vs) k = nth_error ls k.
Proof.
  unfold setl. revert vs; induction ns as [|n ns IH]; intros vs Hk; [reflexivity|].
  destruct vs as [|v vs]; [reflexivity|]. cbn. rewrite lset_other by (cbn in Hk; intuition congruence).
  apply IH. cbn in Hk; tauto.
Qed.
Lemma setl_get ls ns vs : NoDup ns -> Forall (fun n => (n < length ls)%nat) ns -> length vs = length ns ->
  Forall2 (fun n v => nth_error (setl ls ns vs) n = Some v) ns vs.
Proof.
  intros Nd. revert vs. induction Nd as [|n ns Hn Nd IH]; intros [|v vs] F L; try discriminate; [constructor|].
  inversion F as [|? ? F1 F2]; subst. constructor.
  - unfold setl. cbn. apply lset_same. fold (setl ls ns vs). rewrite setl_len. exact F1.
  - specialize (IH vs F2 (eq_add_S _ _ L)). clear - IH Hn.
    assert (forall m w, In m ns -> nth_error (setl ls ns vs) m = Some w -> nth_error (setl ls (n :: ns) (v :: vs)) m = Some w) as K.
    { intros m w Hm E. unfold setl. cbn. rewrite lset_other; [exact E|]. congruence. }
    revert K IH. generalize (setl ls ns vs) (setl ls (n :: ns) (v :: vs)). intros l1 l2 K F.
    induction F as [|a b ns vs H F IH]; constructor.
    + apply K; [left; reflexivity|exact H].
    + apply IH; [cbn in Hn; tauto|]. intros m w Hm. apply K. right. exact Hm.
Qed.

Section Run.
Variable E : env gctx.

Lemma run_lsets_eq fu ns vs ls k (st : store gctx) : length vs = length ns ->
  run_list (exec E fu) (map LSet (rev ns)) (mkcfg ls (rev vs ++ k) st) = ONormal (mkcfg (setl ls ns vs) k st).
Proof.
  revert vs k. induction ns as [|n ns IH]; intros [|v vs] k L; try discriminate; [reflexivity|].
  cbn [rev]. rewrite map_app, run_app, <- app_assoc, (IH vs ([v] ++ k)) by (cbn in L; lia).
  cbn [map run_list]. rewrite (exec_simple E fu (LSet n)) by reflexivity. reflexivity.
Qed.

Lemma run_lgets_eq fu ns vs ls k (st : store gctx) : Forall2 (fun n v => nth_error ls n = Some v) ns vs ->
  run_list (exec E fu) (map LGet ns) (mkcfg ls k st) = ONormal (mkcfg ls (rev vs ++ k) st).
Proof.
  intro F. revert k. induction F as [|n v ns vs Hn F IH]; intro k; [reflexivity|].
  cbn [map run_list]. rewrite (exec_simple E fu (LGet n)) by reflexivity. cbn [step clocals]. rewrite Hn.
  unfold setstk. cbn [clocals cstack cstore]. rewrite IH. cbn [rev]. rewrite <- app_assoc. reflexivity.
Qed.
End Run.

(** the state after a call to one of the contract's own functions, which returned
    in state [g1] when called with a new savepoint from [g] *)
Definition kept (g g1 : gctx) : gctx := g_with_tx g1 (g_db g1) (g_layers g) (g_ro g).
Definition undone (g g1 : gctx) : gctx := g_with_tx g1 (g_db g) (g_layers g) (g_ro g).

Section Exact.
Variable E : env gctx.
Hypothesis HE : bracketed E.

Theorem public_call_exact f args st tag vs st1 locals ls k :
  savepoint f = false -> fun_arity E f = Some (length args) ->
  calls E f args (host_to st (begun (shost st) (is_read_only (shost st)))) (RVals (VI32 tag :: vs) st1) ->
  length locals = S (length vs) -> NoDup locals -> Forall (fun n => (n < length ls)%nat) locals ->
  exists ls', (forall n, ~ In n locals -> nth_error ls' n = nth_error ls n) /\
    runs E (local_call_public f locals) (mkcfg ls (rev args ++ k) st)
      (ONormal (mkcfg ls' (rev (VI32 tag :: vs) ++ k)
         (host_to st1 ((if tag =? 0 then undone else kept) (shost st) (shost st1))))).
Proof.
  intros Hf Ha [f0 Hc] L Nd Fl. exists (setl ls locals (VI32 tag :: vs)).
  split; [intros n Hn; apply setl_other; exact Hn|].
  exists (S f0). intros fuel Hfu. destruct fuel as [|fu]; [lia|].
  specialize (Hc fu ltac:(lia)).
  pose proof (invoke_saves E HE fu f args _ _ _ Hf Hc) as K. unfold saves in K.
  unfold host_to, begun in K. cbn [shost g_with_tx g_layers g_ro] in K.
  assert (g_layers (shost st1) = g_db (shost st) :: g_layers (shost st)) as KL by congruence.
  assert (g_ro (shost st1) = is_read_only (shost st) :: g_ro (shost st)) as KR by congruence.
  unfold execs, local_call_public. cbn [app run_list].
  rewrite (run_begin E HE). cbn iota.
  replace (exec E (S fu) (Call f) (mkcfg ls (rev args ++ k) (host_to st (begun (shost st) (is_read_only (shost st)))))) with
    (match fun_arity E f with Some n => ret_call ls (skipn n (rev args ++ k)) (call_func E (exec E fu) f (rev (firstn n (rev args ++ k)))
       (host_to st (begun (shost st) (is_read_only (shost st))))) | None => OStuck end) by reflexivity.
  rewrite Ha. rewrite <- (rev_length args), firstn_app, firstn_all, Nat.sub_diag, skipn_app, skipn_all, Nat.sub_diag.
  cbn [firstn skipn app]. rewrite app_nil_r, rev_involutive. unfold invoke in Hc. rewrite Hc. cbn [ret_call].
  assert (forall c w, (if c =? 0 then undone (shost st) (shost st1) else kept (shost st) (shost st1)) = w ->
     host_to st1 w = host_to st1 (if c =? 0 then undone (shost st) (shost st1) else kept (shost st) (shost st1))) as Hh by (intros; congruence).
  rewrite run_app. rewrite (run_lsets_eq E (S fu) locals (VI32 tag :: vs)) by (cbn; lia).
  pose proof (setl_get ls locals (VI32 tag :: vs) Nd Fl ltac:(cbn; lia)) as G.
  remember (setl ls locals (VI32 tag :: vs)) as ls2 eqn:El2. clear El2.
  destruct locals as [|n0 locals]; [discriminate|]. inversion G as [|? ? ? ? G1 G2]; subst.
  cbn [hd app run_list]. rewrite (exec_simple E (S fu) (LGet n0)) by reflexivity. cbn [step clocals]. rewrite G1.
  unfold setstk. cbn [clocals cstack cstore].
  rewrite (exec_if E (S fu) 0 0 _ _ _ tag k) by reflexivity. unfold execs. cbn [firstn skipn].
  unfold setstk. cbn [clocals cstack cstore].
  destruct (tag =? 0); cbn [run_list].
  - rewrite (run_roll_back E HE), KL. cbn [exit_block]. unfold setstk. cbn [clocals cstack cstore firstn app].
    match goal with |- context [mkcfg ls2 k ?s] => change (run_list (exec E (S fu)) (map LGet (n0 :: locals)) (mkcfg ls2 k s) = ONormal (mkcfg ls2 ((rev vs ++ [VI32 tag]) ++ k) (host_to st1 (undone (shost st) (shost st1))))) end.
    rewrite (run_lgets_eq E (S fu) (n0 :: locals) (VI32 tag :: vs)) by (constructor; assumption).
    unfold undone, host_to. cbn [rev]. rewrite KR. reflexivity.
  - rewrite (run_commit E HE), KL. cbn [exit_block]. unfold setstk. cbn [clocals cstack cstore firstn app].
    match goal with |- context [mkcfg ls2 k ?s] => change (run_list (exec E (S fu)) (map LGet (n0 :: locals)) (mkcfg ls2 k s) = ONormal (mkcfg ls2 ((rev vs ++ [VI32 tag]) ++ k) (host_to st1 (kept (shost st) (shost st1))))) end.
    rewrite (run_lgets_eq E (S fu) (n0 :: locals) (VI32 tag :: vs)) by (constructor; assumption).
    unfold kept, host_to. cbn [rev]. rewrite KR. reflexivity.
Qed.

Theorem read_only_call_exact f args st vs st1 ls k :
  savepoint f = false -> fun_arity E f = Some (length args) ->
  calls E f args (host_to st (begun (shost st) true)) (RVals vs st1) ->
  runs E (local_call_read_only f) (mkcfg ls (rev args ++ k) st)
    (ONormal (mkcfg ls (rev vs ++ k) (host_to st1 (undone (shost st) (shost st1))))).
Proof.
  intros Hf Ha [f0 Hc]. exists (S f0). intros fuel Hfu. destruct fuel as [|fu]; [lia|].
  specialize (Hc fu ltac:(lia)).
  pose proof (invoke_saves E HE fu f args _ _ _ Hf Hc) as K. unfold saves in K.
  unfold host_to, begun in K. cbn [shost g_with_tx g_layers g_ro] in K.
  assert (g_layers (shost st1) = g_db (shost st) :: g_layers (shost st)) as KL by congruence.
  assert (g_ro (shost st1) = true :: g_ro (shost st)) as KR by congruence.
  unfold execs, local_call_read_only. cbn [run_list]. rewrite (run_begin_ro E HE). cbn iota.
  replace (exec E (S fu) (Call f) (mkcfg ls (rev args ++ k) (host_to st (begun (shost st) true)))) with
    (match fun_arity E f with Some n => ret_call ls (skipn n (rev args ++ k)) (call_func E (exec E fu) f (rev (firstn n (rev args ++ k)))
       (host_to st (begun (shost st) true))) | None => OStuck end) by reflexivity.
  rewrite Ha. rewrite <- (rev_length args), firstn_app, firstn_all, Nat.sub_diag, skipn_app, skipn_all, Nat.sub_diag.
  cbn [firstn skipn app]. rewrite app_nil_r, rev_involutive. unfold invoke in Hc. rewrite Hc. cbn [ret_call].
  rewrite (run_roll_back E HE), KL. unfold undone, host_to. cbn [tl]. rewrite KR. reflexivity.
Qed.
End Exact.
