(** * Symbolic-execution tactics (proof support). *)
From Coq Require Import ZArith String List Bool Lia.
From Coq Require Export ZifyBool.
Import ListNotations.
From Verif Require Import Wasm Std StdEnv WasmLogic.
Open Scope Z_scope.

Ltac zlia := Z.to_euclidean_division_equations; lia.

Lemma b2z_eq0 b : (b2z b =? 0) = negb b.
Proof. destruct b; reflexivity. Qed.

Lemma b2z_range b : 0 <= b2z b < 2.
Proof. destruct b; simpl; lia. Qed.

Section Rules.
Context {HS : Type} (E : env HS).
Notation wp := (wp E).

Lemma wp_load kd off is ls a k st Q :
  a + off + Z.of_nat (ldbytes kd) <= msize (smem st) ->
  wp is (mkcfg ls (ldval kd (ldn (smem st) (a + off) (ldbytes kd)) :: k) st) Q ->
  wp (Load kd off :: is) (mkcfg ls (VI32 a :: k) st) Q.
Proof.
  intros Hb Hw. eapply wp_step1; [reflexivity| |exact Hw].
  cbn [step cstack cstore]. unfold load.
  destruct (Z.leb_spec (a + off + Z.of_nat (ldbytes kd)) (msize (smem st))); [reflexivity|lia].
Qed.

Lemma wp_load_trap kd off is ls a k st (Q : outcome HS -> Prop) :
  msize (smem st) < a + off + Z.of_nat (ldbytes kd) ->
  Q (OTrap TMem st) ->
  wp (Load kd off :: is) (mkcfg ls (VI32 a :: k) st) Q.
Proof.
  intros Hb Hw. eapply wp_step with (o := OTrap TMem st); [reflexivity| |exact Hw].
  cbn [step cstack cstore]. unfold load.
  destruct (Z.leb_spec (a + off + Z.of_nat (ldbytes kd)) (msize (smem st))); [lia|reflexivity].
Qed.

Lemma wp_store kd off is ls v z a k st Q :
  stval kd v = Some z ->
  a + off + Z.of_nat (stbytes kd) <= msize (smem st) ->
  wp is (mkcfg ls k (with_mem st (stn (smem st) (a + off) (stbytes kd) z))) Q ->
  wp (Store kd off :: is) (mkcfg ls (v :: VI32 a :: k) st) Q.
Proof.
  intros Hv Hb Hw. eapply wp_step1; [reflexivity| |exact Hw].
  cbn [step cstack cstore clocals]. rewrite Hv. unfold store_.
  destruct (Z.leb_spec (a + off + Z.of_nat (stbytes kd)) (msize (smem st))); [reflexivity|lia].
Qed.

Lemma wp_gget g v is ls k st Q :
  gget (sglob st) g = Some v ->
  wp is (mkcfg ls (v :: k) st) Q ->
  wp (GGet g :: is) (mkcfg ls k st) Q.
Proof.
  intros Hg Hw. eapply wp_step1; [reflexivity| |exact Hw].
  cbn [step cstack cstore]. rewrite Hg. reflexivity.
Qed.

Lemma wp_gset g v is ls k st Q :
  wp is (mkcfg ls k (with_glob st (gset (sglob st) g v))) Q ->
  wp (GSet g :: is) (mkcfg ls (v :: k) st) Q.
Proof. intros Hw. eapply wp_step1; [reflexivity|reflexivity|exact Hw]. Qed.

Lemma wp_unreachable is ls k st (Q : outcome HS -> Prop) :
  Q (OTrap TUnreachable st) -> wp (Unreachable :: is) (mkcfg ls k st) Q.
Proof. intros Hw. eapply wp_step with (o := OTrap TUnreachable st); [reflexivity|reflexivity|exact Hw]. Qed.

Lemma wp_memcopy is ls n src dst k st Q :
  src + n <= msize (smem st) -> dst + n <= msize (smem st) ->
  wp is (mkcfg ls k (with_mem st (mcopy (smem st) dst src n))) Q ->
  wp (MemCopy :: is) (mkcfg ls (VI32 n :: VI32 src :: VI32 dst :: k) st) Q.
Proof.
  intros H1 H2 Hw. eapply wp_step1; [reflexivity| |exact Hw].
  cbn [step cstack cstore clocals].
  destruct (Z.leb_spec (src + n) (msize (smem st))); [|lia].
  destruct (Z.leb_spec (dst + n) (msize (smem st))); [|lia]. reflexivity.
Qed.

Lemma wp_memfill is ls n v dst k st Q :
  dst + n <= msize (smem st) ->
  wp is (mkcfg ls k (with_mem st (mfill (smem st) dst v n))) Q ->
  wp (MemFill :: is) (mkcfg ls (VI32 n :: VI32 v :: VI32 dst :: k) st) Q.
Proof.
  intros H1 Hw. eapply wp_step1; [reflexivity| |exact Hw].
  cbn [step cstack cstore clocals].
  destruct (Z.leb_spec (dst + n) (msize (smem st))); [|lia]. reflexivity.
Qed.

Lemma wp_divu64 is ls a b k st Q :
  b <> 0 ->
  wp is (mkcfg ls (VI64 (a / b) :: k) st) Q ->
  wp (B64 DivU :: is) (mkcfg ls (VI64 b :: VI64 a :: k) st) Q.
Proof.
  intros H1 Hw. eapply wp_step1; [reflexivity| |exact Hw].
  cbn [step cstack cstore clocals ibin]. destruct (Z.eqb_spec b 0); [contradiction|reflexivity].
Qed.

Lemma wp_divu32 is ls a b k st Q :
  b <> 0 ->
  wp is (mkcfg ls (VI32 (a / b) :: k) st) Q ->
  wp (B32 DivU :: is) (mkcfg ls (VI32 b :: VI32 a :: k) st) Q.
Proof.
  intros H1 Hw. eapply wp_step1; [reflexivity| |exact Hw].
  cbn [step cstack cstore clocals ibin]. destruct (Z.eqb_spec b 0); [contradiction|reflexivity].
Qed.

Lemma wp_if_eqz np nr t e is ls c k st Q :
  (c <> 0 -> wp t (mkcfg ls (firstn np k) st) (qblock E nr (skipn np k) is Q)) ->
  (c = 0 -> wp e (mkcfg ls (firstn np k) st) (qblock E nr (skipn np k) is Q)) ->
  wp (If np nr t e :: is) (mkcfg ls (VI32 c :: k) st) Q.
Proof.
  intros H1 H2. eapply wp_if; [reflexivity|].
  destruct (Z.eqb_spec c 0); simpl; auto.
Qed.

Lemma wp_brif_eqz n is ls c k st (Q : outcome HS -> Prop) :
  (c = 0 -> wp is (mkcfg ls k st) Q) ->
  (c <> 0 -> Q (OBr n (mkcfg ls k st))) ->
  wp (BrIf n :: is) (mkcfg ls (VI32 c :: k) st) Q.
Proof.
  intros H1 H2. eapply wp_brif; [reflexivity|]. destruct (Z.eqb_spec c 0); simpl; auto.
Qed.

End Rules.

(** literal powers and shifts *)
Ltac zred :=
  repeat match goal with
  | |- context [2 ^ (?c mod ?w)] =>
      is_const_Z c; let v := eval vm_compute in (2 ^ (c mod w)) in change (2 ^ (c mod w)) with v
  | |- context [2 ^ (?w - ?c mod ?w')] =>
      is_const_Z c; let v := eval vm_compute in (2 ^ (w - c mod w')) in change (2 ^ (w - c mod w')) with v
  end
with is_const_Z c :=
  lazymatch c with
  | Z0 => idtac
  | Zpos ?p => is_const_pos p
  | Zneg ?p => is_const_pos p
  end
with is_const_pos p :=
  lazymatch p with
  | xH => idtac
  | xO ?q => is_const_pos q
  | xI ?q => is_const_pos q
  end.

Ltac wpure :=
  eapply (wp_psteps _ 200);
  [ cbv [psteps pure_instr step ibin irel nth_error lset clocals cstack cstore setstk app map zero_of
         flocals fparams fresults fbody];
    reflexivity
  | zred; cbn [cont qblock qfunc qcall exit_block exit_func ret_call firstn skipn app length setstk
       clocals cstack cstore rev] ].

Ltac wcbn := cbn [cont qblock qfunc qcall qloop exit_block exit_func ret_call firstn skipn app length setstk
       clocals cstack cstore rev].

(** enter a function of the standard library *)
Ltac wenter HE :=
  eapply wpf_intro; [apply (std_fun _ HE); reflexivity |
    lazymatch goal with |- wp _ (fbody ?f) _ _ => unfold f end;
    cbn [flocals fparams fresults fbody map zero_of app length]].

(** call a function of the standard library (then apply its specification) *)
Ltac wcall HE :=
  eapply wp_call;
  [ unfold fun_arity; erewrite (std_fun _ HE) by reflexivity;
    match goal with |- Some ?x = _ => let y := eval vm_compute in x in exact (eq_refl (Some y)) end
  | cbn [clocals cstack cstore firstn skipn rev app] ].

Ltac wif H := apply wp_if_bool; intros H; wcbn.
Ltac wbrif H := apply wp_brif_bool; intros H; wcbn.
Ltac wnil := apply wp_nil; unfold qblock, qfunc; wcbn.
Ltac wret := apply wp_ret; unfold qblock, qfunc; wcbn.
Ltac wbr := apply wp_br; unfold qblock, qfunc; wcbn.

(** conclude [R y] from [H : R x] by proving the components of [x = y] *)
Ltac req :=
  repeat first
    [ reflexivity
    | match goal with
      | |- RVals _ _ = RVals _ _ => apply f_equal2
      | |- (_ :: _) = (_ :: _) => apply f_equal2
      | |- VI64 _ = VI64 _ => apply f_equal
      | |- VI32 _ = VI32 _ => apply f_equal
      | |- VV128 _ = VV128 _ => apply f_equal
      | |- b2z _ = b2z _ => apply f_equal
      end ].
Ltac rconv H :=
  first [ exact H |
  match type of H with
  | ?R ?x => match goal with |- R ?y =>
      let h := fresh in assert (h : x = y); [req | rewrite <- h; exact H] end
  end ].
(** case split on the condition in a hypothesis [R (if b then _ else _)] *)
Ltac rsplit H :=
  match type of H with
  | context [if ?b then _ else _] => destruct b eqn:?
  end.
