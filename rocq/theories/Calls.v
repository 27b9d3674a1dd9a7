(** * Calls to the contract's own functions: wasm_generator.rs 1720-1790, 1968-2037.

    The emitted code, the shape of code that opens and closes savepoints only
    that way, and the proof that such code leaves the savepoints as it found them. *)
From Coq Require Import ZArith String List Bool Lia Arith.
Import ListNotations.
From Verif Require Import Wasm StdEnv WasmLogic Clar Codec Ledger Invar.
Open Scope Z_scope.

Definition f_begin : string := "stdlib.begin_public_call".
Definition f_begin_ro : string := "stdlib.begin_read_only_call".
Definition f_commit : string := "stdlib.commit_call".
Definition f_roll_back : string := "stdlib.roll_back_call".

(** wasm_generator.rs 1980-2020 [local_call_public]; [locals] are the fresh locals of
    [save_to_locals(.., true)] (1560-1581), in logical order, tag first *)
Definition local_call_public (f : string) (locals : list nat) : list instr :=
  [Call f_begin; Call f] ++
  map LSet (rev locals) ++
  [LGet (hd O locals); If 0 0 [Call f_commit] [Call f_roll_back]] ++
  map LGet locals.

(** wasm_generator.rs 2023-2037 [local_call_read_only] *)
Definition local_call_read_only (f : string) : list instr :=
  [Call f_begin_ro; Call f; Call f_roll_back].

Definition savepoint (f : string) : bool :=
  existsb (String.eqb f) [f_begin; f_begin_ro; f_commit; f_roll_back].

Definition plain (i : instr) : Prop :=
  match i with
  | Block _ _ _ | Loop _ _ _ | If _ _ _ _ => False
  | Call f => savepoint f = false
  | _ => True
  end.

(** code in which savepoints are opened and closed only by the two sequences *)
Inductive well_bracketed : list instr -> Prop :=
| wb_nil : well_bracketed []
| wb_plain i is : plain i -> well_bracketed is -> well_bracketed (i :: is)
| wb_block np nr b is : well_bracketed b -> well_bracketed is -> well_bracketed (Block np nr b :: is)
| wb_loop np nr b is : well_bracketed b -> well_bracketed is -> well_bracketed (Loop np nr b :: is)
| wb_if np nr t e is : well_bracketed t -> well_bracketed e -> well_bracketed is -> well_bracketed (If np nr t e :: is)
| wb_public f locals is : savepoint f = false -> well_bracketed is -> well_bracketed (local_call_public f locals ++ is)
| wb_read_only f is : savepoint f = false -> well_bracketed is -> well_bracketed (local_call_read_only f ++ is).

(** the savepoints, with their read-only flags *)
Definition saves (g : gctx) : list db * list bool := (g_layers g, g_ro g).

(** A module all of whose functions are well bracketed, run by this host; other
    imports leave the savepoints alone. *)
Record bracketed (E : env gctx) : Prop := {
  br_fun : forall f fn, efun E f = Some fn -> well_bracketed (fbody fn);
  br_tab : forall f, In f (etable E) -> savepoint f = false;
  br_save : forall f, savepoint f = true -> efun E f = None /\ ehost E f = assoc f ledger_host;
  br_other : forall f ps h args st, savepoint f = false -> ehost E f = Some (ps, h) ->
      match h args st with
      | RVals _ st' | RTrap _ st' => saves (shost st') = saves (shost st)
      | _ => True
      end }.

(** the savepoints [S] are still there, below those opened since *)
Definition above (S : list db * list bool) (g : gctx) : Prop :=
  exists pl pr, saves g = (pl ++ fst S, pr ++ snd S).
Lemma above_same S g : saves g = S -> above S g.
Proof. intros <-. exists [], []. reflexivity. Qed.
Lemma above_begun g ro g' : above (g_db g :: g_layers g, ro :: g_ro g) g' -> above (saves g) g'.
Proof.
  intros (pl & pr & E). exists (pl ++ [g_db g]), (pr ++ [ro]). rewrite E. cbn [fst snd saves].
  rewrite <- !app_assoc. reflexivity.
Qed.

Section Balance.
Variable E : env gctx.
Hypothesis HE : bracketed E.

Definition sv_o (S : list db * list bool) (o : outcome gctx) : Prop :=
  match o with
  | ONormal s | OBr _ s | ORet s => saves (shost (cstore s)) = S
  | OTrap _ st => above S (shost st)
  | _ => True
  end.
Definition sv_r (S : list db * list bool) (r : result gctx) : Prop :=
  match r with RVals _ st => saves (shost st) = S | RTrap _ st => above S (shost st) | _ => True end.

Lemma run_app ex a b s : run_list ex (a ++ b) s =
  match run_list ex a s with ONormal s' => @run_list gctx ex b s' | o => o end.
Proof. revert s; induction a as [|i a IH]; intro s; cbn; [reflexivity|]. destruct (ex i s); auto. Qed.

Lemma save_host f : savepoint f = true -> forall fu ls k (st : store gctx),
  exec E (S fu) (Call f) (mkcfg ls k st) =
  match assoc f ledger_host with
  | Some (ps, h) => ret_call ls (skipn (length ps) k) (h (rev (firstn (length ps) k)) st)
  | None => OStuck
  end.
Proof.
  intros Hs fu ls k st. destruct (br_save E HE f Hs) as [Ef Eh]. cbn [exec clocals cstack cstore].
  unfold fun_arity, call_func. rewrite Ef, Eh. destruct (assoc f ledger_host) as [[ps h]|]; reflexivity.
Qed.

Lemma exec_call_0 f s : match exec E 0 (Call f) s with OFuel | OStuck => True | _ => False end.
Proof. cbn. destruct (fun_arity E f); auto. Qed.

Definition begun (g : gctx) (ro : bool) : gctx := g_with_tx g (g_db g) (g_db g :: g_layers g) (ro :: g_ro g).
Definition host_to {A} (s : store A) {B} (g : B) : store B := mkstore (smem s) (sglob s) g.

Lemma run_begin fu ls k st : exec E (S fu) (Call f_begin) (mkcfg ls k st) =
  ONormal (mkcfg ls k (host_to st (begun (shost st) (is_read_only (shost st))))).
Proof. rewrite (save_host f_begin) by reflexivity. reflexivity. Qed.
Lemma run_begin_ro fu ls k st : exec E (S fu) (Call f_begin_ro) (mkcfg ls k st) =
  ONormal (mkcfg ls k (host_to st (begun (shost st) true))).
Proof. rewrite (save_host f_begin_ro) by reflexivity. reflexivity. Qed.
Lemma run_commit fu ls k st : exec E (S fu) (Call f_commit) (mkcfg ls k st) =
  match g_layers (shost st) with
  | _ :: l => ONormal (mkcfg ls k (host_to st (g_with_tx (shost st) (g_db (shost st)) l (tl (g_ro (shost st))))))
  | [] => OTrap THost (host_to st (shost st))
  end.
Proof.
  rewrite (save_host f_commit) by reflexivity.
  change (assoc f_commit ledger_host) with (Some (@nil vt, i_nullary op_commit)). cbn [length skipn firstn rev].
  unfold i_nullary, op_commit, hbind, hget, hput, hret, hfail. destruct (g_layers (shost st)); reflexivity.
Qed.
Lemma run_roll_back fu ls k st : exec E (S fu) (Call f_roll_back) (mkcfg ls k st) =
  match g_layers (shost st) with
  | d :: l => ONormal (mkcfg ls k (host_to st (g_with_tx (shost st) d l (tl (g_ro (shost st))))))
  | [] => OTrap THost (host_to st (shost st))
  end.
Proof.
  rewrite (save_host f_roll_back) by reflexivity.
  change (assoc f_roll_back ledger_host) with (Some (@nil vt, i_nullary op_roll_back)). cbn [length skipn firstn rev].
  unfold i_nullary, op_roll_back, hbind, hget, hput, hret, hfail. destruct (g_layers (shost st)); reflexivity.
Qed.

Lemma run_lsets fu ns ls k st :
  match run_list (exec E fu) (map LSet ns) (mkcfg ls k st) with
  | ONormal s => cstore s = st
  | OStuck => True
  | _ => False
  end.
Proof.
  revert ls k; induction ns as [|n ns IH]; intros ls k; cbn [map run_list]; [reflexivity|].
  rewrite (exec_simple E fu (LSet n)) by reflexivity. cbn [step cstack].
  destruct k as [|v k]; [exact I|]. apply IH.
Qed.
Lemma run_lgets fu ns ls k st :
  match run_list (exec E fu) (map LGet ns) (mkcfg ls k st) with
  | ONormal s => cstore s = st
  | OStuck => True
  | _ => False
  end.
Proof.
  revert k; induction ns as [|n ns IH]; intros k; cbn [map run_list]; [reflexivity|].
  rewrite (exec_simple E fu (LGet n)) by reflexivity. cbn [step clocals].
  destruct (nth_error ls n); [|exact I]. apply IH.
Qed.

Lemma step_saves i (s : cfg gctx) : sv_o (saves (shost (cstore s))) (step i s).
Proof.
  pose proof (step_host (fun g => saves g = saves (shost (cstore s))) (fun g => saves g = saves (shost (cstore s))) (fun _ K => K) i s eq_refl) as K.
  destruct (step i s); try exact K; try exact Logic.I. apply above_same. exact K.
Qed.

Lemma call_saves fu f args st :
  (forall is, well_bracketed is -> forall s, sv_o (saves (shost (cstore s))) (run_list (exec E fu) is s)) ->
  savepoint f = false ->
  sv_r (saves (shost st)) (call_func E (exec E fu) f args st).
Proof.
  intros IH Hf. unfold call_func. destruct (efun E f) as [fn|] eqn:Ef.
  - pose proof (IH _ (br_fun E HE f fn Ef) (mkcfg (args ++ map zero_of (flocals fn)) [] st)) as K.
    cbn [cstore] in K.
    destruct (run_list (exec E fu) (fbody fn) _) as [|[|n]| | | |]; exact K || exact Logic.I.
  - destruct (ehost E f) as [[ps h]|] eqn:Eh; [|exact Logic.I].
    pose proof (br_other E HE f ps h args st Hf Eh) as K. destruct (h args st); try exact K; try exact Logic.I. apply above_same. exact K.
Qed.

(** a public or read-only call sequence, step by step *)
Lemma run_public fu f locals ls k st : savepoint f = false ->
  (forall is, well_bracketed is -> forall s, sv_o (saves (shost (cstore s))) (run_list (exec E fu) is s)) ->
  match run_list (exec E (S fu)) (local_call_public f locals) (mkcfg ls k st) with
  | ONormal s => saves (shost (cstore s)) = saves (shost st)
  | OBr _ _ | ORet _ => False
  | OTrap _ st' => above (saves (shost st)) (shost st')
  | _ => True
  end.
Proof.
  intros Hf IH. unfold local_call_public. cbn [app run_list].
  rewrite run_begin. cbn iota.
  set (st1 := host_to st _).
  replace (exec E (S fu) (Call f) (mkcfg ls k st1)) with
    (match fun_arity E f with Some n => ret_call ls (skipn n k) (call_func E (exec E fu) f (rev (firstn n k)) st1) | None => OStuck end)
    by reflexivity.
  destruct (fun_arity E f) as [n|]; [|exact Logic.I].
  pose proof (call_saves fu f (rev (firstn n k)) st1 IH Hf) as K.
  destruct (call_func E (exec E fu) f (rev (firstn n k)) st1) as [vs st2|t st2| |]; cbn [ret_call]; try exact Logic.I; try exact (above_begun _ _ _ K).
  cbn [sv_r] in K. rewrite run_app.
  pose proof (run_lsets (S fu) (rev locals) ls (rev vs ++ skipn n k) st2) as K1.
  destruct (run_list (exec E (S fu)) (map LSet (rev locals)) _) as [s2| | | | |]; try exact Logic.I; try (exfalso; exact K1).
  destruct s2 as [ls2 k2 st3]. cbn [cstore] in K1. subst st3.
  cbn [app run_list]. rewrite (exec_simple E (S fu) (LGet _)) by reflexivity. cbn [step clocals].
  destruct (nth_error ls2 (hd O locals)) as [v|]; [|exact Logic.I]. cbn [setstk clocals cstack cstore].
  destruct v as [c|c|c]; [|exact Logic.I|exact Logic.I].
  rewrite exec_if with (c := c) (k := k2) by reflexivity. unfold execs. cbn [run_list firstn skipn setstk clocals cstack cstore].
  unfold saves, st1, begun, host_to in K. cbn [shost g_with_tx g_layers g_ro] in K.
  assert (g_layers (shost st2) = g_db (shost st) :: g_layers (shost st)) as KL by congruence.
  assert (g_ro (shost st2) = is_read_only (shost st) :: g_ro (shost st)) as KR by congruence.
  destruct (c =? 0).
  - cbn [run_list]. unfold setstk. cbn [clocals cstack cstore]. rewrite run_roll_back, KL. cbn [exit_block].
    pose proof (run_lgets (S fu) locals ls2 k2 (host_to st2 (g_with_tx (shost st2) (g_db (shost st)) (g_layers (shost st)) (tl (g_ro (shost st2)))))) as K2.
    cbn [clocals cstack cstore app].
    destruct (run_list (exec E (S fu)) (map LGet locals) _) as [s3| | | | |]; try exact Logic.I; try (exfalso; exact K2).
    rewrite K2. unfold saves. cbn. rewrite KR. reflexivity.
  - cbn [run_list]. unfold setstk. cbn [clocals cstack cstore]. rewrite run_commit, KL. cbn [exit_block].
    pose proof (run_lgets (S fu) locals ls2 k2 (host_to st2 (g_with_tx (shost st2) (g_db (shost st2)) (g_layers (shost st)) (tl (g_ro (shost st2)))))) as K2.
    cbn [clocals cstack cstore app].
    destruct (run_list (exec E (S fu)) (map LGet locals) _) as [s3| | | | |]; try exact Logic.I; try (exfalso; exact K2).
    rewrite K2. unfold saves. cbn. rewrite KR. reflexivity.
Qed.

Lemma run_read_only fu f ls k st : savepoint f = false ->
  (forall is, well_bracketed is -> forall s, sv_o (saves (shost (cstore s))) (run_list (exec E fu) is s)) ->
  match run_list (exec E (S fu)) (local_call_read_only f) (mkcfg ls k st) with
  | ONormal s => saves (shost (cstore s)) = saves (shost st) /\ g_db (shost (cstore s)) = g_db (shost st)
  | OBr _ _ | ORet _ => False
  | OTrap _ st' => above (saves (shost st)) (shost st')
  | _ => True
  end.
Proof.
  intros Hf IH. unfold local_call_read_only. cbn [run_list].
  rewrite run_begin_ro. cbn iota.
  set (st1 := host_to st _).
  replace (exec E (S fu) (Call f) (mkcfg ls k st1)) with
    (match fun_arity E f with Some n => ret_call ls (skipn n k) (call_func E (exec E fu) f (rev (firstn n k)) st1) | None => OStuck end)
    by reflexivity.
  destruct (fun_arity E f) as [n|]; [|exact Logic.I].
  pose proof (call_saves fu f (rev (firstn n k)) st1 IH Hf) as K.
  destruct (call_func E (exec E fu) f (rev (firstn n k)) st1) as [vs st2|t st2| |]; cbn [ret_call]; try exact Logic.I; try exact (above_begun _ _ _ K).
  cbn [sv_r] in K.
  unfold saves, st1, begun, host_to in K. cbn [shost g_with_tx g_layers g_ro] in K.
  assert (g_layers (shost st2) = g_db (shost st) :: g_layers (shost st)) as KL by congruence.
  assert (g_ro (shost st2) = true :: g_ro (shost st)) as KR by congruence.
  rewrite run_roll_back, KL. unfold saves. cbn. rewrite KR. auto.
Qed.

Theorem well_bracketed_saves : forall fuel is, well_bracketed is ->
  forall s, sv_o (saves (shost (cstore s))) (run_list (exec E fuel) is s).
Proof.
  induction fuel as [fuel IHf] using lt_wf_ind.
  induction 1 as [|i is Hp Hw IH|np nr b is Hb IHb Hw IH|np nr b is Hb IHb Hw IH|np nr t e is Ht IHt He IHe Hw IH
                 |f locals is Hf Hw IH|f is Hf Hw IH]; intro s.
  - reflexivity.
  - cbn [run_list].
    assert (sv_o (saves (shost (cstore s))) (exec E fuel i s)) as K.
    { destruct i; try contradiction; try (rewrite exec_simple by reflexivity; apply step_saves).
      - destruct fuel; reflexivity.
      - destruct fuel; cbn [exec]; destruct (cstack s) as [|[c|c|c] k]; try exact Logic.I; destruct (c =? 0); reflexivity.
      - destruct fuel; cbn [exec]; destruct (cstack s) as [|[c|c|c] k]; try exact Logic.I; reflexivity.
      - destruct fuel; reflexivity.
      - destruct fuel as [|fu]; cbn [exec].
        + destruct (fun_arity E f); exact Logic.I.
        + destruct (fun_arity E f) as [n|]; [|exact Logic.I].
          pose proof (call_saves fu f (rev (firstn n (cstack s))) (cstore s) (IHf fu (Nat.lt_succ_diag_r fu)) Hp) as K.
          destruct (call_func E (exec E fu) f _ _); exact K || exact Logic.I.
      - destruct fuel as [|fu]; cbn [exec]; destruct (cstack s) as [|[c|c|c] k]; try exact Logic.I;
        (destruct (nth_error (etable E) (Z.to_nat c)) as [f|] eqn:Ef; [|try exact Logic.I; exact (above_same _ _ eq_refl)]);
        destruct (fun_types E f) as [[? ?]|]; try exact Logic.I;
        try (destruct (_ && _); [|try exact Logic.I; exact (above_same _ _ eq_refl)]); try exact Logic.I.
        all: pose proof (call_saves fu f (rev (firstn (length ps) k)) (cstore s) (IHf fu (Nat.lt_succ_diag_r fu))
               (br_tab E HE f (nth_error_In _ _ Ef))) as K;
             destruct (call_func E (exec E fu) f _ _); exact K || exact Logic.I. }
    destruct (exec E fuel i s) as [s'| | | | |]; auto. cbn [sv_o] in K. rewrite <- K. apply IH.
  - cbn [run_list]. rewrite (exec_block E). unfold execs.
    specialize (IHb (setstk s (firstn np (cstack s)))).
    destruct (run_list (exec E fuel) b _) as [s'|[|n] s'| | | |]; cbn [exit_block]; auto; cbn [sv_o setstk cstore] in IHb;
    rewrite <- IHb; apply (IH (setstk s' _)).
  - cbn [run_list].
    rewrite (exec_loop E). unfold execs.
    specialize (IHb (setstk s (firstn np (cstack s)))).
    destruct (run_list (exec E fuel) b _) as [s'|[|n] s'| | | |]; auto; cbn [sv_o setstk cstore] in IHb.
    + rewrite <- IHb. apply (IH (setstk s' _)).
    + destruct fuel as [|fu]; [exact Logic.I|].
      pose proof (IHf fu (Nat.lt_succ_diag_r fu) [Loop np nr b] (wb_loop np nr b [] Hb wb_nil)
        (setstk s' (firstn np (cstack s') ++ skipn np (cstack s)))) as K.
      cbn [run_list] in K. cbn [setstk cstore] in K. rewrite IHb in K.
      destruct (exec E fu (Loop np nr b) _) as [s2| | | | |]; auto. cbn [sv_o] in K. rewrite <- K. apply IH.
  - cbn [run_list].
    destruct (cstack s) as [|[c|c|c] k] eqn:Ek; try (destruct fuel; cbn [exec]; rewrite Ek; exact Logic.I).
    rewrite (exec_if E fuel np nr t e s c k Ek). unfold execs.
    specialize (IHt (setstk s (firstn np k))). specialize (IHe (setstk s (firstn np k))).
    change (saves (shost (cstore (setstk s (firstn np k))))) with (saves (shost (cstore s))) in IHt, IHe.
    destruct (c =? 0).
    + destruct (run_list (exec E fuel) e _) as [s'|[|n] s'| | | |]; cbn [exit_block]; auto; cbn [sv_o] in IHe;
      rewrite <- IHe; apply (IH (setstk s' _)).
    + destruct (run_list (exec E fuel) t _) as [s'|[|n] s'| | | |]; cbn [exit_block]; auto; cbn [sv_o] in IHt;
      rewrite <- IHt; apply (IH (setstk s' _)).
  - rewrite run_app. destruct fuel as [|fu].
    + unfold local_call_public. cbn [app run_list].
      pose proof (exec_call_0 f_begin s) as K. destruct (exec E 0 (Call f_begin) s); try exact Logic.I; destruct K.
    + destruct s as [ls k st].
      pose proof (run_public fu f locals ls k st Hf (IHf fu (Nat.lt_succ_diag_r fu))) as K.
      destruct (run_list (exec E (S fu)) (local_call_public f locals) _) as [s'| | | | |]; try exact Logic.I; try exact K; try (exfalso; exact K).
      cbn [cstore]. rewrite <- K. apply IH.
  - rewrite run_app. destruct fuel as [|fu].
    + unfold local_call_read_only. cbn [app run_list].
      pose proof (exec_call_0 f_begin_ro s) as K. destruct (exec E 0 (Call f_begin_ro) s); try exact Logic.I; destruct K.
    + destruct s as [ls k st].
      pose proof (run_read_only fu f ls k st Hf (IHf fu (Nat.lt_succ_diag_r fu))) as K.
      destruct (run_list (exec E (S fu)) (local_call_read_only f) _) as [s'| | | | |]; try exact Logic.I; try exact K; try (exfalso; exact K).
      cbn [cstore]. destruct K as [K _]. rewrite <- K. apply IH.
Qed.

Theorem invoke_saves fuel f args st vs st' : savepoint f = false ->
  invoke E fuel f args st = RVals vs st' -> saves (shost st') = saves (shost st).
Proof.
  intros Hf Hi. pose proof (call_saves fuel f args st (well_bracketed_saves fuel) Hf) as K.
  unfold invoke in Hi. rewrite Hi in K. exact K.
Qed.
Theorem invoke_trap fuel f args st t st' : savepoint f = false ->
  invoke E fuel f args st = RTrap t st' -> above (saves (shost st)) (shost st').
Proof.
  intros Hf Hi. pose proof (call_saves fuel f args st (well_bracketed_saves fuel) Hf) as K.
  unfold invoke in Hi. rewrite Hi in K. exact K.
Qed.
End Balance.
