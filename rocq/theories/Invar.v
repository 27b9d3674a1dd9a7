(** * Invariants of the host state under arbitrary code.

    If every import keeps [I] when it returns and [J] when it fails, then so does
    every function of every module, whatever its code. *)
From Coq Require Import ZArith String List Bool Lia Arith.
Import ListNotations.
From Verif Require Import Wasm.
Open Scope Z_scope.

Section InstrInd.
  Variable P : instr -> Prop.
  Hypothesis HBlock : forall np nr b, Forall P b -> P (Block np nr b).
  Hypothesis HLoop : forall np nr b, Forall P b -> P (Loop np nr b).
  Hypothesis HIf : forall np nr t e, Forall P t -> Forall P e -> P (If np nr t e).
  Hypothesis HOther : forall i,
    match i with Block _ _ _ | Loop _ _ _ | If _ _ _ _ => True | _ => P i end.
  Fixpoint instr_ind' (i : instr) : P i :=
    let go := (fix go (l : list instr) : Forall P l :=
      match l with [] => Forall_nil _ | x :: l => Forall_cons x (instr_ind' x) (go l) end) in
    match i as i return P i with
    | Block np nr b => HBlock np nr b (go b)
    | Loop np nr b => HLoop np nr b (go b)
    | If np nr t e => HIf np nr t e (go t) (go e)
    | i => HOther i
    end.
End InstrInd.

Section Invar.
Context {HS : Type} (E : env HS) (I J : HS -> Prop).

Definition keeps_o (o : outcome HS) : Prop :=
  match o with
  | ONormal s | OBr _ s | ORet s => I (shost (cstore s))
  | OTrap _ st => J (shost st)
  | _ => True
  end.
Definition keeps_r (r : result HS) : Prop :=
  match r with
  | RVals _ st => I (shost st)
  | RTrap _ st => J (shost st)
  | _ => True
  end.

Hypothesis IJ : forall h, I h -> J h.
Hypothesis host_keeps : forall n ps h args st,
  ehost E n = Some (ps, h) -> I (shost st) -> keeps_r (h args st).

Lemma step_host i s : I (shost (cstore s)) -> keeps_o (step i s).
Proof.
  intro Hs. unfold step.
  destruct i; destruct (cstack s) as [|v0 k0]; cbn [keeps_o]; auto;
  repeat (match goal with |- context [match ?x with _ => _ end] => destruct x; cbn [keeps_o]; auto end).
Qed.

Lemma run_list_inv ex is s :
  Forall (fun i => forall s, I (shost (cstore s)) -> keeps_o (ex i s)) is ->
  I (shost (cstore s)) -> keeps_o (run_list ex is s).
Proof.
  intros F. revert s; induction F as [|i is Hi F IH]; intros s Hs; cbn [run_list]; [exact Hs|].
  specialize (Hi s Hs). destruct (ex i s); auto.
Qed.

Lemma exit_block_inv nr rest o : keeps_o o -> keeps_o (exit_block nr rest o).
Proof. destruct o as [| [|n] | | | |]; auto. Qed.

Lemma call_func_inv fu f args st :
  (forall i s, I (shost (cstore s)) -> keeps_o (exec E fu i s)) ->
  I (shost st) -> keeps_r (call_func E (exec E fu) f args st).
Proof.
  intros IH Hs. unfold call_func. destruct (efun E f) as [fn|].
  - assert (keeps_o (run_list (exec E fu) (fbody fn)
       (mkcfg (args ++ map zero_of (flocals fn)) [] st))) as K.
    { apply run_list_inv; [|exact Hs]. apply Forall_forall. intros; auto. }
    destruct (run_list (exec E fu) (fbody fn)
       (mkcfg (args ++ map zero_of (flocals fn)) [] st)) as [|[|n]| | | |]; exact K || exact Logic.I || auto.
  - destruct (ehost E f) as [[ps h]|] eqn:Eh; [|exact Logic.I]. eapply host_keeps; eauto.
Qed.

Lemma ret_call_inv ls rest r : keeps_r r -> keeps_o (ret_call ls rest r).
Proof. destruct r; auto. Qed.


Lemma exec_inv_step fuel :
  (forall fu, fuel = S fu -> forall i s, I (shost (cstore s)) -> keeps_o (exec E fu i s)) ->
  forall i s, I (shost (cstore s)) -> keeps_o (exec E fuel i s).
Proof.
  intro IHf.
  assert (forall i, (match i with Block _ _ _ | Loop _ _ _ | If _ _ _ _ => True
            | _ => forall s, I (shost (cstore s)) -> keeps_o (exec E fuel i s) end)) as HO.
  { intros i. destruct i; auto; intros s Hs; destruct fuel as [|fu];
    try (apply (step_host _ s Hs)); cbn [exec]; try exact Hs; try exact Logic.I.
    all: lazymatch goal with
         | |- keeps_o (match fun_arity E ?f with _ => _ end) => destruct (fun_arity E f); try exact Logic.I
         | _ => destruct (cstack s) as [|[c|c|c] k]; try exact Logic.I; try (destruct (c =? 0); exact Hs); try exact Hs
         end.
    - apply ret_call_inv, call_func_inv; [|exact Hs]. apply IHf. reflexivity.
    - destruct (nth_error (etable E) (Z.to_nat c)) as [f|]; [|exact (IJ _ Hs)].
      destruct (fun_types E f) as [[? ?]|]; exact Logic.I.
    - destruct (nth_error (etable E) (Z.to_nat c)) as [f|]; [|exact (IJ _ Hs)].
      destruct (fun_types E f) as [[? ?]|].
      + destruct (_ && _); [|exact (IJ _ Hs)].
        apply ret_call_inv, call_func_inv; [apply IHf; reflexivity|exact Hs].
      + apply ret_call_inv, call_func_inv; [apply IHf; reflexivity|exact Hs]. }
  assert (HB : forall fuel b, 
     (Forall (fun i => forall s, I (shost (cstore s)) -> keeps_o (exec E fuel i s)) b ->
      forall s, I (shost (cstore s)) -> keeps_o (run_list (exec E fuel) b s))).
  { intros. apply run_list_inv; auto. }
  refine (instr_ind' _ _ _ _ _).
  - intros np nr b F s Hs. replace (exec E fuel (Block np nr b) s) with
      (exit_block nr (skipn np (cstack s)) (run_list (exec E fuel) b (setstk s (firstn np (cstack s)))))
      by (destruct fuel; reflexivity).
    apply exit_block_inv. apply HB; auto.
  - intros np nr b F s Hs. replace (exec E fuel (Loop np nr b) s) with
      (match run_list (exec E fuel) b (setstk s (firstn np (cstack s))) with
        | ONormal s' => ONormal (setstk s' (cstack s' ++ skipn np (cstack s)))
        | OBr O s' =>
            match fuel with
            | O => OFuel
            | S f => exec E f (Loop np nr b)
                       (setstk s' (firstn np (cstack s') ++ skipn np (cstack s)))
            end
        | OBr (S n) s' => OBr n s'
        | o => o
        end) by (destruct fuel; reflexivity).
    assert (keeps_o (run_list (exec E fuel) b (setstk s (firstn np (cstack s))))) as K by (apply HB; auto).
    destruct (run_list (exec E fuel) b (setstk s (firstn np (cstack s)))) as [|[|n]| | | |]; auto.
    destruct fuel as [|fu]; [exact Logic.I|]. apply (IHf fu eq_refl). exact K.
  - intros np nr t e Ft Fe s Hs. replace (exec E fuel (If np nr t e) s) with
      (match cstack s with
        | VI32 c :: k =>
            exit_block nr (skipn np k)
              (if c =? 0 then run_list (exec E fuel) e (setstk s (firstn np k))
               else run_list (exec E fuel) t (setstk s (firstn np k)))
        | _ => OStuck
        end) by (destruct fuel; reflexivity).
    destruct (cstack s) as [|[c|c|c] k]; try exact Logic.I.
    apply exit_block_inv. destruct (c =? 0); apply HB; auto.
  - exact HO.
Qed.

Theorem exec_inv : forall fuel i s, I (shost (cstore s)) -> keeps_o (exec E fuel i s).
Proof.
  induction fuel as [|fu IH]; apply exec_inv_step.
  - discriminate.
  - intros fu' H. injection H as <-. exact IH.
Qed.

Theorem invoke_inv fuel f args st : I (shost st) -> keeps_r (invoke E fuel f args st).
Proof. intro Hs. apply call_func_inv; auto. apply exec_inv. Qed.

End Invar.
