(** * Weakest-precondition reasoning for the WASM semantics (proof support). *)
From Coq Require Import ZArith String List Bool Lia.
Import ListNotations.
From Verif Require Import Wasm Std StdEnv.
Open Scope Z_scope.

Section Logic.
Context {HS : Type}.
Variable E : env HS.
Notation cfg := (cfg HS).
Notation outcome := (outcome HS).
Implicit Types (s : cfg) (o : outcome) (Q : outcome -> Prop) (R : result HS -> Prop).

(** [wp is s Q]: running [is] from [s] terminates, with an outcome satisfying [Q]. *)
Definition wp (is : list instr) s Q : Prop :=
  exists f0 o, (forall f, (f0 <= f)%nat -> execs E f is s = o) /\ Q o.

(** [wpf f args st R]: calling [f] terminates, with a result satisfying [R]. *)
Definition wpf (f : string) (args : list val) (st : store HS) R : Prop :=
  exists f0 r, (forall fu, (f0 <= fu)%nat -> invoke E fu f args st = r) /\ R r.

Lemma wpf_calls f args st r : wpf f args st (fun x => x = r) -> calls E f args st r.
Proof. intros (f0 & r' & H & ->). exists f0. exact H. Qed.

Lemma calls_wpf f args st r R : calls E f args st r -> R r -> wpf f args st R.
Proof. intros (f0 & H) HR. exists f0, r. split; auto. Qed.

Lemma wp_runs is s o : wp is s (fun x => x = o) -> runs E is s o.
Proof. intros (f0 & o' & H & ->). exists f0. exact H. Qed.

Lemma runs_wp is s o Q : runs E is s o -> Q o -> wp is s Q.
Proof. intros (f0 & H) HR. exists f0, o. split; auto. Qed.

Lemma wp_mono is s Q Q' : wp is s Q -> (forall o, Q o -> Q' o) -> wp is s Q'.
Proof. intros (f0 & o & H & HQ) HI. exists f0, o. split; auto. Qed.

Lemma wpf_mono f args st R R' : wpf f args st R -> (forall r, R r -> R' r) -> wpf f args st R'.
Proof. intros (f0 & r & H & HQ) HI. exists f0, r. split; auto. Qed.

Lemma calls_det f args st r r' : calls E f args st r -> calls E f args st r' -> r = r'.
Proof.
  intros (f0 & H) (f1 & H').
  rewrite <- (H (Nat.max f0 f1)) by lia. apply H'. lia.
Qed.

Lemma runs_det is s o o' : runs E is s o -> runs E is s o' -> o = o'.
Proof.
  intros (f0 & H) (f1 & H').
  rewrite <- (H (Nat.max f0 f1)) by lia. apply H'. lia.
Qed.

Lemma wp_nil s Q : Q (ONormal s) -> wp [] s Q.
Proof. intros H. exists O, (ONormal s). split; [reflexivity | exact H]. Qed.

Definition is_simple (i : instr) : bool :=
  match i with
  | Block _ _ _ | Loop _ _ _ | If _ _ _ _ | Br _ | BrIf _ | BrTable _ _ | Return | Call _ | CallInd _ _ => false
  | _ => true
  end.

Lemma exec_simple f i s : is_simple i = true -> exec E f i s = step i s.
Proof. destruct f, i; simpl; intros; try discriminate; reflexivity. Qed.

Lemma execs_cons f i is s :
  execs E f (i :: is) s =
  match exec E f i s with ONormal s' => execs E f is s' | o => o end.
Proof. reflexivity. Qed.

(** continuation after one instruction *)
Definition cont (is : list instr) Q : outcome -> Prop :=
  fun o => match o with ONormal s' => wp is s' Q | o => Q o end.

Lemma wp_cons_gen i is s f0 o Q :
  (forall f, (f0 <= f)%nat -> exec E f i s = o) -> cont is Q o -> wp (i :: is) s Q.
Proof.
  intros H HC. destruct o; simpl in HC.
  - destruct HC as (f1 & o & H1 & HQ).
    exists (Nat.max f0 f1), o. split; auto. intros f Hf.
    rewrite execs_cons, H by lia. apply H1. lia.
  - eexists f0, _. split; [|exact HC]. intros f Hf. rewrite execs_cons, H by lia. reflexivity.
  - eexists f0, _. split; [|exact HC]. intros f Hf. rewrite execs_cons, H by lia. reflexivity.
  - eexists f0, _. split; [|exact HC]. intros f Hf. rewrite execs_cons, H by lia. reflexivity.
  - eexists f0, _. split; [|exact HC]. intros f Hf. rewrite execs_cons, H by lia. reflexivity.
  - eexists f0, _. split; [|exact HC]. intros f Hf. rewrite execs_cons, H by lia. reflexivity.
Qed.

Lemma wp_app is1 is2 s Q : wp is1 s (cont is2 Q) -> wp (is1 ++ is2) s Q.
Proof.
  intros (f0 & o & H & HC).
  assert (HA : forall f, execs E f (is1 ++ is2) s =
     match execs E f is1 s with ONormal s' => execs E f is2 s' | o => o end).
  { clear. intros f. revert s. induction is1 as [|i is1 IH]; intros s; [reflexivity|].
    cbn [app]. rewrite !execs_cons. destruct (exec E f i s); auto. }
  destruct o; simpl in HC.
  - destruct HC as (f1 & o & H1 & HQ). exists (Nat.max f0 f1), o. split; auto.
    intros f Hf. rewrite HA, H by lia. apply H1. lia.
  - eexists f0, _. split; [|exact HC]. intros f Hf. rewrite HA, H by lia. reflexivity.
  - eexists f0, _. split; [|exact HC]. intros f Hf. rewrite HA, H by lia. reflexivity.
  - eexists f0, _. split; [|exact HC]. intros f Hf. rewrite HA, H by lia. reflexivity.
  - eexists f0, _. split; [|exact HC]. intros f Hf. rewrite HA, H by lia. reflexivity.
  - eexists f0, _. split; [|exact HC]. intros f Hf. rewrite HA, H by lia. reflexivity.
Qed.

Lemma wp_step i is s o Q :
  is_simple i = true -> step i s = o -> cont is Q o -> wp (i :: is) s Q.
Proof.
  intros Hs Ho HC. eapply (wp_cons_gen i is s O o); auto.
  intros f _. rewrite exec_simple by auto. exact Ho.
Qed.

Lemma wp_step1 i is s s' Q :
  is_simple i = true -> step i s = ONormal s' -> wp is s' Q -> wp (i :: is) s Q.
Proof. intros. eapply wp_step; eauto. Qed.

(** run the longest prefix of instructions that reduce to [ONormal] by computation *)
Definition pure_instr (i : instr) : bool :=
  match i with
  | Const _ | LGet _ | LSet _ | LTee _ | Drop | Select | Nop
  | R32 _ | R64 _ | Eqz32 | Eqz64 | Clz64 | Clz32 | Wrap | ExtU
  | VAnd | VXor | VAnyTrue | VSwizzle | VExtract64 _ => true
  | B32 o | B64 o => match o with DivU | DivS | RemU => false | _ => true end
  | _ => false
  end.

Fixpoint psteps (n : nat) (is : list instr) (s : cfg) : list instr * cfg :=
  match n with
  | O => (is, s)
  | S n =>
      match is with
      | [] => (is, s)
      | i :: is' =>
          if pure_instr i then
            match step i s with
            | ONormal s' => psteps n is' s'
            | _ => (is, s)
            end
          else (is, s)
      end
  end.

Lemma wp_psteps n is s is' s' Q :
  psteps n is s = (is', s') -> wp is' s' Q -> wp is s Q.
Proof.
  revert is s. induction n as [|n IH]; simpl; intros is s H HW.
  - injection H as <- <-; auto.
  - destruct is as [|i is]; [injection H as <- <-; auto|].
    destruct (pure_instr i) eqn:Hp; [|injection H as <- <-; auto].
    assert (is_simple i = true) by (destruct i; simpl in *; congruence).
    destruct (step i s) eqn:Hs; try (injection H as <- <-; auto).
    eapply wp_step1; eauto.
Qed.

Lemma exec_block f np nr body s :
  exec E f (Block np nr body) s =
  exit_block nr (skipn np (cstack s)) (execs E f body (setstk s (firstn np (cstack s)))).
Proof. destruct f; reflexivity. Qed.

Lemma exec_if f np nr t e s c k :
  cstack s = VI32 c :: k ->
  exec E f (If np nr t e) s =
  exit_block nr (skipn np k)
    (execs E f (if c =? 0 then e else t) (setstk s (firstn np k))).
Proof.
  intros H. destruct f; simpl; rewrite H; destruct (c =? 0); reflexivity.
Qed.

(** postcondition of the body of a block *)
Definition qblock (nr : nat) (rest : list val) (is : list instr) Q : outcome -> Prop :=
  fun o => cont is Q (exit_block nr rest o).

Lemma wp_block np nr body is s Q :
  wp body (setstk s (firstn np (cstack s))) (qblock nr (skipn np (cstack s)) is Q) ->
  wp (Block np nr body :: is) s Q.
Proof.
  intros (f0 & o & H & HQ). unfold qblock in HQ.
  eapply (wp_cons_gen _ _ _ f0); [|exact HQ].
  intros f Hf. rewrite exec_block, H by auto. reflexivity.
Qed.

Lemma wp_if np nr t e is s c k Q :
  cstack s = VI32 c :: k ->
  wp (if c =? 0 then e else t) (setstk s (firstn np k)) (qblock nr (skipn np k) is Q) ->
  wp (If np nr t e :: is) s Q.
Proof.
  intros Hc (f0 & o & H & HQ). unfold qblock in HQ.
  eapply (wp_cons_gen _ _ _ f0); [|exact HQ].
  intros f Hf. rewrite (exec_if _ _ _ _ _ _ _ _ Hc), H by auto. reflexivity.
Qed.

Lemma wp_if_bool np nr t e is ls (b : bool) k st Q :
  (b = true -> wp t (mkcfg ls (firstn np k) st) (qblock nr (skipn np k) is Q)) ->
  (b = false -> wp e (mkcfg ls (firstn np k) st) (qblock nr (skipn np k) is Q)) ->
  wp (If np nr t e :: is) (mkcfg ls (VI32 (b2z b) :: k) st) Q.
Proof.
  intros H1 H2. eapply wp_if; [reflexivity|].
  destruct b; simpl; auto.
Qed.

Lemma wp_br n is s Q : Q (OBr n s) -> wp (Br n :: is) s Q.
Proof.
  intros H. eapply (wp_cons_gen _ _ _ O (OBr n s)); [|exact H].
  intros [|f] _; reflexivity.
Qed.

Lemma wp_ret is s Q : Q (ORet s) -> wp (Return :: is) s Q.
Proof.
  intros H. eapply (wp_cons_gen _ _ _ O (ORet s)); [|exact H].
  intros [|f] _; reflexivity.
Qed.

Lemma wp_brif n is s c k Q :
  cstack s = VI32 c :: k ->
  (if c =? 0 then wp is (setstk s k) Q else Q (OBr n (setstk s k))) ->
  wp (BrIf n :: is) s Q.
Proof.
  intros Hc H.
  eapply (wp_cons_gen _ _ _ O (if c =? 0 then ONormal (setstk s k) else OBr n (setstk s k))).
  - intros [|f] _; simpl; rewrite Hc; reflexivity.
  - destruct (c =? 0); exact H.
Qed.

Lemma wp_brif_bool n is ls (b : bool) k st Q :
  (b = false -> wp is (mkcfg ls k st) Q) ->
  (b = true -> Q (OBr n (mkcfg ls k st))) ->
  wp (BrIf n :: is) (mkcfg ls (VI32 (b2z b) :: k) st) Q.
Proof.
  intros H1 H2. eapply wp_brif; [reflexivity|]. destruct b; simpl; auto.
Qed.

Lemma wp_brtable ns d is s c k Q :
  cstack s = VI32 c :: k ->
  Q (OBr (if c <? Z.of_nat (length ns) then nth (Z.to_nat c) ns d else d) (setstk s k)) ->
  wp (BrTable ns d :: is) s Q.
Proof.
  intros Hc H.
  eapply (wp_cons_gen _ _ _ O (OBr (if c <? Z.of_nat (length ns) then nth (Z.to_nat c) ns d else d) (setstk s k))); [|exact H].
  intros [|f] _; simpl; rewrite Hc; reflexivity.
Qed.

(** what happens to the caller after a call *)
Definition qcall (ls rest : list val) (is : list instr) Q : result HS -> Prop :=
  fun r => cont is Q (ret_call ls rest r).

Lemma wp_call f n is s Q :
  fun_arity E f = Some n ->
  wpf f (rev (firstn n (cstack s))) (cstore s) (qcall (clocals s) (skipn n (cstack s)) is Q) ->
  wp (Call f :: is) s Q.
Proof.
  intros Ha (f0 & r & H & HQ). unfold qcall in HQ.
  eapply (wp_cons_gen _ _ _ (S f0)); [|exact HQ].
  intros [|fu] Hf; [lia|]. simpl. rewrite Ha.
  specialize (H fu ltac:(lia)). unfold invoke in H. rewrite H. reflexivity.
Qed.

Lemma wp_callind ps rs f is s c k Q :
  cstack s = VI32 c :: k ->
  nth_error (etable E) (Z.to_nat c) = Some f ->
  match fun_types E f with
  | Some (ps', rs') => vts_eqb ps ps' && vts_eqb rs rs' = true
  | None => True end ->
  wpf f (rev (firstn (length ps) k)) (cstore s) (qcall (clocals s) (skipn (length ps) k) is Q) ->
  wp (CallInd ps rs :: is) s Q.
Proof.
  intros Hc Ht Hty (f0 & r & H & HQ). unfold qcall in HQ.
  eapply (wp_cons_gen _ _ _ (S f0)); [|exact HQ].
  intros [|fu] Hf; [lia|]. simpl. rewrite Hc, Ht.
  specialize (H fu ltac:(lia)). unfold invoke in H. rewrite H.
  destruct (fun_types E f) as [[ps' rs']|]; [rewrite Hty|]; reflexivity.
Qed.

(** entering a defined function *)
Definition qfunc (nr : nat) R : outcome -> Prop := fun o => R (exit_func nr o).

Lemma wpf_intro f fn args st R :
  efun E f = Some fn ->
  wp (fbody fn) (mkcfg (args ++ map zero_of (flocals fn)) [] st)
     (qfunc (length (fresults fn)) R) ->
  wpf f args st R.
Proof.
  intros Hf (f0 & o & H & HQ). exists f0, (exit_func (length (fresults fn)) o).
  split; [|exact HQ]. intros fu Hfu. unfold invoke, call_func. rewrite Hf.
  f_equal. apply H. auto.
Qed.

Lemma wpf_host f ps h args st R :
  efun E f = None -> ehost E f = Some (ps, h) -> R (h args st) -> wpf f args st R.
Proof.
  intros H1 H2 HR. exists O, (h args st). split; [|exact HR].
  intros fu _. unfold invoke, call_func. rewrite H1, H2. reflexivity.
Qed.

(** loops: [I n s] is the invariant at loop entry (on the configuration whose
    stack is the loop's own operands), with measure [n]. *)
Definition qloop (np nr : nat) (rest : list val) (is : list instr) Q (J : cfg -> Prop) : outcome -> Prop :=
  fun o => match o with
  | ONormal s' => wp is (setstk s' (cstack s' ++ rest)) Q
  | OBr O s' => J (setstk s' (firstn np (cstack s')))
  | OBr (S n) s' => Q (OBr n s')
  | o => Q o
  end.

Lemma exec_loop f np nr body s :
  exec E f (Loop np nr body) s =
  match execs E f body (setstk s (firstn np (cstack s))) with
  | ONormal s' => ONormal (setstk s' (cstack s' ++ skipn np (cstack s)))
  | OBr O s' =>
      match f with
      | O => OFuel
      | S f => exec E f (Loop np nr body) (setstk s' (firstn np (cstack s') ++ skipn np (cstack s)))
      end
  | OBr (S n) s' => OBr n s'
  | o => o
  end.
Proof. destruct f; reflexivity. Qed.

Lemma wp_loop {A} (lt : A -> A -> Prop) (I : A -> cfg -> Prop) np nr body is s a Q :
  well_founded lt ->
  I a (setstk s (firstn np (cstack s))) ->
  (np <= length (cstack s))%nat ->
  (forall a s', I a s' -> length (cstack s') = np ->
     wp body s' (qloop np nr (skipn np (cstack s)) is Q
                   (fun s'' => length (cstack s'') = np /\ exists a', lt a' a /\ I a' s''))) ->
  wp (Loop np nr body :: is) s Q.
Proof.
  intros Hwf H0 Hlen Hbody.
  set (rest := skipn np (cstack s)) in *.
  assert (Hgen : forall a s1, I a s1 -> length (cstack s1) = np ->
    exists f0 o, (forall f, (f0 <= f)%nat ->
      exec E f (Loop np nr body) (setstk s1 (cstack s1 ++ rest)) = o) /\ cont is Q o).
  { clear a H0. intros a. induction (Hwf a) as [a _ IH]. intros s1 HI Hl.
    destruct (Hbody a s1 HI Hl) as (f0 & o & He & HQ).
    assert (Hs1 : forall f, (f0 <= f)%nat ->
       execs E f body (setstk (setstk s1 (cstack s1 ++ rest))
          (firstn np (cstack (setstk s1 (cstack s1 ++ rest))))) = o).
    { intros f Hf. simpl. rewrite <- Hl, firstn_app, Nat.sub_diag, firstn_all, firstn_O, app_nil_r.
      destruct s1. simpl. apply He. auto. }
    assert (Hrest : skipn np (cstack (setstk s1 (cstack s1 ++ rest))) = rest).
    { simpl. rewrite <- Hl, skipn_app, Nat.sub_diag, skipn_all. reflexivity. }
    destruct o as [s'|[|n] s'|s'|k st| |]; simpl in HQ;
      [ exists f0, (ONormal (setstk s' (cstack s' ++ rest)))
      | | exists f0, (OBr n s') | exists f0, (ORet s') | exists f0, (OTrap k st)
      | exists f0, OFuel | exists f0, OStuck ];
      try (split; [intros f Hf; rewrite exec_loop, Hs1 by auto; rewrite ?Hrest; reflexivity | exact HQ]).
    destruct HQ as (Hl' & a' & Hlt & HI').
    destruct (IH a' Hlt _ HI' Hl') as (f1 & o' & H1 & HQ').
    exists (S (Nat.max f0 f1)), o'. split; auto.
    intros f Hf. destruct f as [|f]; [lia|].
    rewrite exec_loop, Hs1, Hrest by lia. apply H1. lia. }
  destruct (Hgen a _ H0) as (f0 & o & H & HQ).
  { simpl. apply firstn_length_le. exact Hlen. }
  eapply wp_cons_gen; [|exact HQ].
  intros f Hf. rewrite <- (H f Hf). f_equal. destruct s; simpl. unfold setstk; simpl.
  unfold rest; simpl. rewrite firstn_skipn. reflexivity.
Qed.

(** special case used for the runtime library: no loop operands, [Z] measure *)
Lemma wp_loop0 (I : Z -> cfg -> Prop) nr body is ls k st (z : Z) Q :
  0 <= z ->
  I z (mkcfg ls [] st) ->
  (forall z ls st, 0 <= z -> I z (mkcfg ls [] st) ->
     wp body (mkcfg ls [] st) (qloop 0 nr k is Q
        (fun s'' => exists z', 0 <= z' < z /\ I z' s''))) ->
  wp (Loop 0 nr body :: is) (mkcfg ls k st) Q.
Proof.
  intros Hz H0 Hb.
  eapply (wp_loop (fun a b : Z => 0 <= a < b) (fun z s => 0 <= z /\ I z s)) with (a := z).
  - apply (Z.lt_wf 0).
  - simpl. auto.
  - simpl. lia.
  - intros b s1 HH Hl. destruct HH as [Ha HI]. destruct s1 as [ls1 k1 st1]. simpl in Hl. destruct k1; [|discriminate].
    eapply wp_mono; [apply (Hb b ls1 st1); auto|].
    intros oo; destruct oo as [s2|n s2|s2|kk st2| |]; simpl; auto. destruct n; auto.
    intros (z' & Hz' & HI'). split; [reflexivity|]. exists z'. intuition lia.
Qed.

(** ** Fuel monotonicity *)

Section instr_rect.
  Variable P : instr -> Prop.
  Hypothesis Hblock : forall np nr b, Forall P b -> P (Block np nr b).
  Hypothesis Hloop : forall np nr b, Forall P b -> P (Loop np nr b).
  Hypothesis Hif : forall np nr t e, Forall P t -> Forall P e -> P (If np nr t e).
  Hypothesis Hother : forall i, (forall np nr b, i <> Block np nr b) ->
    (forall np nr b, i <> Loop np nr b) -> (forall np nr t e, i <> If np nr t e) -> P i.
  Fixpoint instr_nested_ind (i : instr) : P i :=
    let go := fix go (l : list instr) : Forall P l :=
      match l with [] => Forall_nil _ | x :: l => Forall_cons _ (instr_nested_ind x) (go l) end in
    match i with
    | Block np nr b => Hblock np nr b (go b)
    | Loop np nr b => Hloop np nr b (go b)
    | If np nr t e => Hif np nr t e (go t) (go e)
    | i => Hother i ltac:(intros; discriminate) ltac:(intros; discriminate) ltac:(intros; discriminate)
    end.
End instr_rect.

Definition mono_at (f : nat) (i : instr) : Prop :=
  forall s, exec E f i s <> OFuel -> exec E (S f) i s = exec E f i s.

Lemma run_list_mono f is :
  Forall (mono_at f) is ->
  forall s, execs E f is s <> OFuel -> execs E (S f) is s = execs E f is s.
Proof.
  induction 1 as [|i is Hi His IH]; intros s Hs; [reflexivity|].
  rewrite !execs_cons in *.
  assert (Hn : exec E f i s <> OFuel) by (intros Hn; rewrite Hn in Hs; congruence).
  rewrite (Hi s Hn). destruct (exec E f i s); auto.
Qed.

Lemma exit_block_fuel nr rest o : exit_block nr rest o <> OFuel -> o <> OFuel.
Proof. intros H ->. apply H. reflexivity. Qed.

Lemma call_func_mono f :
  (forall i, mono_at f i) ->
  forall fn args st, call_func E (exec E f) fn args st <> RFuel ->
  call_func E (exec E (S f)) fn args st = call_func E (exec E f) fn args st.
Proof.
  intros Hall fn args st H. unfold call_func in *.
  destruct (efun E fn); [|reflexivity].
  f_equal. apply (run_list_mono f).
  - apply Forall_forall. intros; apply Hall.
  - intros Hn. unfold execs in Hn. rewrite Hn in H. apply H. reflexivity.
Qed.

Lemma exec_mono f : forall i, mono_at f i.
Proof.
  induction f as [|f IHf].
  - intros i. induction i as [np nr b IH|np nr b IH|np nr t e IHt IHe|i H1 H2 H3]
      using instr_nested_ind; intros s Hs.
    + rewrite !exec_block in *. f_equal. apply run_list_mono; auto.
      eapply exit_block_fuel; eauto.
    + rewrite !exec_loop in *. rewrite (run_list_mono 0 b IH).
      * destruct (execs E 0 b _) as [s'|[|n] s'| | | |]; try reflexivity.
        congruence.
      * intros Hn. rewrite Hn in Hs. congruence.
    + simpl in Hs |- *. destruct (cstack s) as [|[c|c|c] k]; try reflexivity.
      f_equal. apply exit_block_fuel in Hs. destruct (c =? 0).
      * apply (run_list_mono 0 e IHe). exact Hs.
      * apply (run_list_mono 0 t IHt). exact Hs.
    + destruct i; try reflexivity; try (exfalso; eapply H1; reflexivity);
        try (exfalso; eapply H2; reflexivity); try (exfalso; eapply H3; reflexivity).
      * simpl in Hs |- *. destruct (fun_arity E f); congruence.
      * simpl in Hs |- *. destruct (cstack s) as [|[c|c|c] k]; try reflexivity.
        destruct (nth_error _ _); try reflexivity.
        destruct (fun_types E s0) as [[? ?]|]; congruence.
  - intros i. induction i as [np nr b IH|np nr b IH|np nr t e IHt IHe|i H1 H2 H3]
      using instr_nested_ind; intros s Hs.
    + rewrite !exec_block in *. f_equal. apply run_list_mono; auto.
      eapply exit_block_fuel; eauto.
    + rewrite exec_loop. rewrite exec_loop in Hs.
      rewrite (exec_loop (S f)).
      rewrite (run_list_mono (S f) b IH).
      * destruct (execs E (S f) b _) as [s'|[|n] s'| | | |]; try reflexivity.
        apply IHf. exact Hs.
      * intros Hn. rewrite Hn in Hs. congruence.
    + assert (Hx : forall f, exec E f (If np nr t e) s =
         match cstack s with
         | VI32 c :: k => exit_block nr (skipn np k) (execs E f (if c =? 0 then e else t) (setstk s (firstn np k)))
         | _ => OStuck end).
      { clear. intros f. destruct (cstack s) as [|[c|c|c] k] eqn:Hc;
          try (destruct f; simpl; rewrite Hc; reflexivity). apply exec_if; auto. }
      rewrite !Hx in *. destruct (cstack s) as [|[c|c|c] k]; try reflexivity.
      f_equal. apply exit_block_fuel in Hs. destruct (c =? 0).
      * apply (run_list_mono (S f) e IHe). exact Hs.
      * apply (run_list_mono (S f) t IHt). exact Hs.
    + destruct i; try reflexivity; try (exfalso; eapply H1; reflexivity);
        try (exfalso; eapply H2; reflexivity); try (exfalso; eapply H3; reflexivity).
      * change (exec E (S (S f)) (Call f0) s) with
          (match fun_arity E f0 with Some n => ret_call (clocals s) (skipn n (cstack s))
              (call_func E (exec E (S f)) f0 (rev (firstn n (cstack s))) (cstore s)) | None => OStuck end).
        change (exec E (S f) (Call f0) s) with
          (match fun_arity E f0 with Some n => ret_call (clocals s) (skipn n (cstack s))
              (call_func E (exec E f) f0 (rev (firstn n (cstack s))) (cstore s)) | None => OStuck end) in *.
        destruct (fun_arity E f0); [|reflexivity].
        rewrite call_func_mono; auto.
        intros Hn. rewrite Hn in Hs. apply Hs; reflexivity.
      * simpl in Hs |- *. destruct (cstack s) as [|[c|c|c] k]; try reflexivity.
        destruct (nth_error _ _) as [g|]; try reflexivity.
        destruct (fun_types E g) as [[ps' rs']|].
        -- destruct (vts_eqb ps ps' && vts_eqb rs rs'); [|reflexivity].
           rewrite <- (call_func_mono f); auto.
           intros Hn. rewrite Hn in Hs. apply Hs; reflexivity.
        -- rewrite <- (call_func_mono f); auto.
           intros Hn. rewrite Hn in Hs. apply Hs; reflexivity.
Qed.

Lemma invoke_mono f f' fn args st :
  (f <= f')%nat -> invoke E f fn args st <> RFuel ->
  invoke E f' fn args st = invoke E f fn args st.
Proof.
  intros Hle H. induction Hle as [|f' Hle IH]; [reflexivity|].
  rewrite <- IH. apply call_func_mono; [apply exec_mono|].
  change (invoke E f' fn args st <> RFuel). congruence.
Qed.

(** one concrete run with enough fuel determines the call's result *)
Lemma calls_compute f fn args st r :
  invoke E f fn args st = r -> r <> RFuel -> calls E fn args st r.
Proof.
  intros H Hr. exists f. intros fu Hfu. rewrite (invoke_mono f fu); congruence.
Qed.

Lemma execs_mono f f' is s :
  (f <= f')%nat -> execs E f is s <> OFuel -> execs E f' is s = execs E f is s.
Proof.
  intros Hle H. induction Hle as [|f' Hle IH]; [reflexivity|].
  rewrite <- IH. apply run_list_mono; [apply Forall_forall; intros; apply exec_mono|].
  congruence.
Qed.

Lemma runs_compute f is s o : execs E f is s = o -> o <> OFuel -> runs E is s o.
Proof.
  intros H Hr. exists f. intros fu Hfu. rewrite (execs_mono f fu); congruence.
Qed.

End Logic.
