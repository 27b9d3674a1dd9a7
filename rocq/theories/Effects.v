(** * Effect analysis of code

    A syntactic check of which parts of the store code can touch, and its
    soundness: for every argument and store, whatever the code computes. *)
From Coq Require Import ZArith String List Bool Lia Arith.
Import ListNotations.
From Verif Require Import Wasm Std StdEnv Spec Invar.
Open Scope Z_scope.

(** [wm]: memory may be written; [ok]: functions that may be called *)
Fixpoint quiet_instr (wm : bool) (ok : list string) (i : instr) : bool :=
  match i with
  | Store _ _ | MemCopy | MemFill => wm
  | GSet _ | CallInd _ _ => false
  | Call f => existsb (String.eqb f) ("stdlib.runtime-error"%string :: ok)
  | Block _ _ b | Loop _ _ b => forallb (quiet_instr wm ok) b
  | If _ _ t e => forallb (quiet_instr wm ok) t && forallb (quiet_instr wm ok) e
  | _ => true
  end.
Definition quiet_fun (wm : bool) (ok : list string) (n : string) : bool :=
  match assoc n std_funs with Some f => forallb (quiet_instr wm ok) (fbody f) | None => false end.

Section Sound.
Context {HS : Type} (E : env HS) (HE : has_std E) (wm : bool) (ok : list string).
Hypothesis Hok : forallb (quiet_fun wm ok) ok = true.

(** the store is the same, except for the contents of memory when [wm] *)
Definition same_but (st st' : store HS) : Prop :=
  sglob st' = sglob st /\ shost st' = shost st /\ msize (smem st') = msize (smem st) /\
  (wm = false -> st' = st).
(** after a trap the runtime error code may also have been set *)
Definition same_but_code (st st' : store HS) : Prop :=
  same_but st st' \/
  exists st1 c, same_but st st1 /\ st' = with_glob st1 (gset (sglob st1) "runtime-error-code" c).

Definition keeps_o' (st : store HS) (o : outcome HS) : Prop :=
  match o with
  | ONormal s | OBr _ s | ORet s => same_but st (cstore s)
  | OTrap _ st' => same_but_code st st'
  | _ => True
  end.
Definition keeps_r' (st : store HS) (r : result HS) : Prop :=
  match r with
  | RVals _ st' => same_but st st'
  | RTrap _ st' => same_but_code st st'
  | _ => True
  end.

Lemma same_refl st : same_but st st.
Proof. unfold same_but; auto. Qed.
Lemma same_trans a b c : same_but a b -> same_but b c -> same_but a c.
Proof.
  unfold same_but. intros (A1 & A2 & A3 & A4) (B1 & B2 & B3 & B4).
  split; [congruence|]. split; [congruence|]. split; [congruence|]. intro H. rewrite (B4 H). auto.
Qed.
Lemma code_trans a b c : same_but a b -> same_but_code b c -> same_but_code a c.
Proof.
  intros A [B|(st1 & c1 & B & ->)]; [left; eapply same_trans; eauto|].
  right. exists st1, c1. split; [eapply same_trans; eauto|reflexivity].
Qed.
Lemma keeps_trans a b o : same_but a b -> keeps_o' b o -> keeps_o' a o.
Proof. intros A. destruct o; cbn; auto; try (eapply same_trans; eauto). apply code_trans; auto. Qed.

Lemma msize_stn n : forall m a v, msize (stn m a n v) = msize m.
Proof. induction n; intros; cbn [stn]; auto. rewrite IHn. reflexivity. Qed.

Lemma step_quiet i s : quiet_instr wm ok i = true -> keeps_o' (cstore s) (step i s).
Proof.
  intro Hq. unfold step.
  destruct i; try discriminate Hq; destruct (cstack s) as [|v0 k0]; cbn [keeps_o']; try exact I; try apply same_refl;
  repeat (match goal with |- context [match ?x with _ => _ end] => destruct x eqn:?; cbn [keeps_o']; try exact I; try apply same_refl; try (left; apply same_refl) end).
  all: cbn in Hq; unfold same_but; cbn [cstore sglob shost smem msize with_mem mcopy mfill].
  all: try (split; [reflexivity|]; split; [reflexivity|]; split; [|congruence]; try reflexivity).
  all: try (left; apply same_refl).
  all: match goal with H : store_ _ _ _ _ = Some _ |- _ =>
         unfold store_ in H; match type of H with (if ?c then _ else _) = _ => destruct c; [|discriminate H] end;
         injection H as <-; apply msize_stn end.
Qed.

Lemma run_list_quiet ex is :
  Forall (fun i => forall s, keeps_o' (cstore s) (ex i s)) is ->
  forall s, keeps_o' (cstore s) (run_list ex is s).
Proof.
  intros F. induction F as [|i is Hi F IH]; intros s; cbn [run_list]; [apply same_refl|].
  specialize (Hi s). destruct (ex i s) as [s'| | | | |]; auto.
  eapply keeps_trans; [exact Hi|apply IH].
Qed.

Lemma exit_block_quiet nr rest st o : keeps_o' st o -> keeps_o' st (exit_block nr rest o).
Proof. destruct o as [| [|n] | | | |]; auto. Qed.

Lemma runtime_error_quiet fu args st :
  keeps_r' st (call_func E (exec E fu) "stdlib.runtime-error" args st).
Proof.
  unfold call_func. rewrite (std_fun E HE "stdlib.runtime-error" f_runtime_error eq_refl).
  unfold f_runtime_error. cbn [fbody flocals map run_list].
  replace (exec E fu (LGet 0) (mkcfg (args ++ []) [] st)) with (step (LGet 0) (mkcfg (args ++ []) [] st)) by (destruct fu; reflexivity).
  cbn [step cstack clocals]. destruct (nth_error (args ++ []) 0) as [v|]; [|exact I]. cbn [setstk clocals cstore].
  replace (exec E fu (GSet "runtime-error-code") (setstk (mkcfg (args ++ []) [] st) [v]))
    with (step (GSet "runtime-error-code") (setstk (mkcfg (args ++ []) [] st) [v])) by (destruct fu; reflexivity).
  cbn [step cstack clocals setstk cstore].
  replace (exec E fu Unreachable (mkcfg (args ++ []) [] (with_glob st (gset (sglob st) "runtime-error-code" v))))
    with (@step HS Unreachable (mkcfg (args ++ []) [] (with_glob st (gset (sglob st) "runtime-error-code" v)))) by (destruct fu; reflexivity).
  cbn [step cstore exit_func keeps_r']. right. exists st, v. split; [apply same_refl|reflexivity].
Qed.

Lemma call_quiet fu f args st :
  (forall i s, quiet_instr wm ok i = true -> keeps_o' (cstore s) (exec E fu i s)) ->
  In f ok -> keeps_r' st (call_func E (exec E fu) f args st).
Proof.
  intros IH Hf. rewrite forallb_forall in Hok. specialize (Hok f Hf). unfold quiet_fun in Hok.
  destruct (assoc f std_funs) as [fn|] eqn:Ef; [|discriminate].
  unfold call_func. rewrite (std_fun E HE f fn Ef).
  assert (K : keeps_o' st (run_list (exec E fu) (fbody fn) (mkcfg (args ++ map zero_of (flocals fn)) [] st))).
  { change st with (cstore (mkcfg (args ++ map zero_of (flocals fn)) [] st)) at 1. apply run_list_quiet.
    apply Forall_forall. intros i Hi s. apply IH. rewrite forallb_forall in Hok. auto. }
  destruct (run_list (exec E fu) (fbody fn) (mkcfg (args ++ map zero_of (flocals fn)) [] st)) as [|[|n]| | | |]; exact K || exact I.
Qed.

Lemma ret_call_quiet st ls rest r : keeps_r' st r -> keeps_o' st (ret_call ls rest r).
Proof. destruct r; auto. Qed.

Lemma exec_quiet_step fuel :
  (forall fu, fuel = S fu -> forall i s, quiet_instr wm ok i = true -> keeps_o' (cstore s) (exec E fu i s)) ->
  forall i, quiet_instr wm ok i = true -> forall s, keeps_o' (cstore s) (exec E fuel i s).
Proof.
  intro IHf.
  assert (HB : forall b, Forall (fun i => quiet_instr wm ok i = true -> forall s, keeps_o' (cstore s) (exec E fuel i s)) b ->
     forallb (quiet_instr wm ok) b = true -> forall s, keeps_o' (cstore s) (run_list (exec E fuel) b s)).
  { intros b F Hb. apply run_list_quiet. rewrite forallb_forall in Hb. rewrite Forall_forall in *. intros i Hi s. auto. }
  refine (instr_ind' _ _ _ _ _).
  - intros np nr b F Hq s. cbn [quiet_instr] in Hq.
    replace (exec E fuel (Block np nr b) s) with
      (exit_block nr (skipn np (cstack s)) (run_list (exec E fuel) b (setstk s (firstn np (cstack s)))))
      by (destruct fuel; reflexivity).
    apply exit_block_quiet. apply (HB b F Hq (setstk s (firstn np (cstack s)))).
  - intros np nr b F Hq s. assert (Hq' := Hq). cbn [quiet_instr] in Hq.
    replace (exec E fuel (Loop np nr b) s) with
      (match run_list (exec E fuel) b (setstk s (firstn np (cstack s))) with
        | ONormal s' => ONormal (setstk s' (cstack s' ++ skipn np (cstack s)))
        | OBr O s' =>
            match fuel with
            | O => OFuel
            | S f => exec E f (Loop np nr b)
                       (setstk s' (firstn np (cstack s') ++ skipn np (cstack s)))
            end
        | OBr (S n) s' => OBr n s'
        | o => o
        end) by (destruct fuel; reflexivity).
    assert (K := HB b F Hq (setstk s (firstn np (cstack s)))). cbn [cstore setstk] in K.
    destruct (run_list (exec E fuel) b (setstk s (firstn np (cstack s)))) as [s'|[|n] s'| | | |]; auto.
    destruct fuel as [|fu]; [exact I|].
    eapply keeps_trans; [exact K|].
    apply (IHf fu eq_refl (Loop np nr b) (setstk s' (firstn np (cstack s') ++ skipn np (cstack s))) Hq').
  - intros np nr t e Ft Fe Hq s. cbn [quiet_instr] in Hq. apply andb_prop in Hq as [Hqt Hqe].
    replace (exec E fuel (If np nr t e) s) with
      (match cstack s with
        | VI32 c :: k =>
            exit_block nr (skipn np k)
              (if c =? 0 then run_list (exec E fuel) e (setstk s (firstn np k))
               else run_list (exec E fuel) t (setstk s (firstn np k)))
        | _ => OStuck
        end) by (destruct fuel; reflexivity).
    destruct (cstack s) as [|[c|c|c] k]; try exact I.
    apply exit_block_quiet. destruct (c =? 0).
    + apply (HB e Fe Hqe (setstk s (firstn np k))).
    + apply (HB t Ft Hqt (setstk s (firstn np k))).
  - intros i. destruct i; auto; intros Hq s; try discriminate Hq.
    all: try (match goal with |- keeps_o' _ (exec _ ?fu ?i ?s) =>
         replace (exec E fu i s) with (step i s) by (destruct fu; reflexivity) end; apply step_quiet; exact Hq).
    all: match goal with |- keeps_o' _ (exec _ ?fu _ _) => destruct fu as [|fu]; cbn [exec]; try exact I; try apply same_refl end.
    all: lazymatch goal with
         | |- keeps_o' _ (match fun_arity E ?f with _ => _ end) => destruct (fun_arity E f); try exact I
         | _ => destruct (cstack s) as [|[c|c|c] k]; try exact I; try (destruct (c =? 0)); try apply same_refl
         end.
    apply ret_call_quiet. cbn [quiet_instr] in Hq. apply existsb_exists in Hq as (f' & [<-|Hin] & Hfe).
    + apply String.eqb_eq in Hfe. subst f. apply runtime_error_quiet.
    + apply String.eqb_eq in Hfe. subst f'. apply call_quiet; [|exact Hin]. apply IHf. reflexivity.
Qed.

Lemma exec_quiet : forall fuel i s, quiet_instr wm ok i = true -> keeps_o' (cstore s) (exec E fuel i s).
Proof.
  induction fuel as [|fu IH]; intros i s Hq; revert i Hq s; apply exec_quiet_step.
  - discriminate.
  - intros fu' H. injection H as <-. exact IH.
Qed.

Theorem invoke_quiet fuel f args st : In f ok -> keeps_r' st (invoke E fuel f args st).
Proof. intro Hf. apply call_quiet; [apply exec_quiet|exact Hf]. Qed.

Theorem calls_quiet f args st r : In f ok -> calls E f args st r -> keeps_r' st r.
Proof.
  intros Hf [f0 H]. specialize (H f0 (le_n _)). rewrite <- H. apply invoke_quiet, Hf.
Qed.
End Sound.
