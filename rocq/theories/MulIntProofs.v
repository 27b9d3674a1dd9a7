(** * Proofs about signed multiplication. *)
From Coq Require Import ZArith String List Bool Lia.
Import ListNotations.
From Verif Require Import Wasm Std StdEnv WasmLogic WasmTac Spec ZBits ArithProofs BitProofs MulProofs.
Open Scope Z_scope.

(** limbs of the absolute value, as the code computes them *)
Definition neg_lo al := (0 - al) mod m64.
Definition neg_hi al ah := (0 - (ah + b2z (negb (al =? 0))) mod m64) mod m64.

Lemma neg_limbs al ah : lim al -> lim ah ->
  val128 (neg_lo al) (neg_hi al ah) = (- val128 al ah) mod m128.
Proof.
  unfold lim, neg_lo, neg_hi, b2z. intros. destruct (Z.eqb_spec al 0); cbn [negb]; zlia.
Qed.
Lemma neg_lo_lim al : lim (neg_lo al). Proof. apply Z.mod_pos_bound; lia. Qed.
Lemma neg_hi_lim al ah : lim (neg_hi al ah). Proof. apply Z.mod_pos_bound; lia. Qed.

Lemma sval_alt l h : lim l -> lim h -> sval128 l h = if h64 <=? h then val128 l h - m128 else val128 l h.
Proof. unfold lim, sgn64. intros. destruct (Z.ltb_spec h h64), (Z.leb_spec h64 h); lia. Qed.

Lemma abs_limbs al ah : lim al -> lim ah ->
  val128 (if h64 <=? ah then neg_lo al else al) (if h64 <=? ah then neg_hi al ah else ah)
  = Z.abs (sval128 al ah).
Proof.
  intros Hl Hh. rewrite sval_alt by auto. pose proof (neg_limbs al ah Hl Hh) as N.
  unfold lim in *. destruct (Z.leb_spec h64 ah); [rewrite N|]; zlia.
Qed.

Section MulInt.
Context {HS : Type} (E : env HS) (HE : has_std E).
Implicit Types (st : store HS) (R : result HS -> Prop).
Ltac wfin := unfold qcall, qblock, qfunc; wcbn.

Definition mul_int_ok (a b : Z) : bool :=
  (a =? 1) || (b =? 1) || ((- h128 <? a * b) && (a * b <? h128)).

Lemma mul_int_wp al ah bl bh st R :
  lim al -> lim ah -> lim bl -> lim bh ->
  R (if mul_int_ok (sval128 al ah) (sval128 bl bh)
     then RVals (i128 (sval128 al ah * sval128 bl bh)) st
     else err 0 st) ->
  wpf E "stdlib.mul-int" [VI64 al; VI64 ah; VI64 bl; VI64 bh] st R.
Proof.
  intros H1 H2 H3 H4 H. wenter HE. wpure.
  set (A := sval128 al ah) in *. set (B := sval128 bl bh) in *.
  rewrite lor_eqb0, lxor_eqb0. wif Hc.
  { assert (HA : A = 1).
    { apply andb_prop in Hc as [Ha Hb]. apply Z.eqb_eq in Ha, Hb. subst A ah al. reflexivity. }
    wpure. wret. unfold mul_int_ok in H. rewrite HA in H. cbn [Z.eqb Pos.eqb orb] in H.
    rewrite Z.mul_1_l in H. subst B. rewrite i128_limbs in H; auto. }
  wnil. wpure. rewrite lor_eqb0, lxor_eqb0. wif Hd.
  { assert (HA : B = 1).
    { apply andb_prop in Hd as [Ha Hb]. apply Z.eqb_eq in Ha, Hb. subst B bh bl. reflexivity. }
    wpure. wret. unfold mul_int_ok in H. rewrite HA, orb_true_r in H. cbn [Z.eqb Pos.eqb orb] in H.
    rewrite Z.mul_1_r in H. subst A. rewrite i128_limbs in H; auto. }
  wnil. wpure.
  rewrite !b2z_eq0, !sgn64_lt0 by auto. fold (neg_lo al) (neg_hi al ah) (neg_lo bl) (neg_hi bl bh).
  assert (SW : forall (b : bool) (x y : Z), (if negb b then x else y) = (if b then y else x)) by (intros []; auto).
  rewrite !SW.
  wcall HE. apply mul_uint_wp; auto.
  1-4: destruct (_ <=? _); auto using neg_lo_lim, neg_hi_lim.
  rewrite !abs_limbs by auto. fold A B. rewrite <- Z.abs_mul.
  assert (Hok : mul_int_ok A B = (Z.abs (A * B) <? h128)).
  { unfold mul_int_ok.
    assert (A <> 1). { subst A. rewrite sval_alt by auto. unfold lim in *. destruct (Z.leb_spec h64 ah); lia. }
    assert (B <> 1). { subst B. rewrite sval_alt by auto. unfold lim in *. destruct (Z.leb_spec h64 bh); lia. }
    lia. }
  rewrite Hok in H. set (P := A * B) in *.
  wfin. unfold err. destruct (Z.ltb_spec (Z.abs P) m128).
  2:{ wcbn. destruct (Z.ltb_spec (Z.abs P) h128); [lia|]. exact H. }
  unfold u128. rewrite pow64. wcbn. wpure.
  assert (L1 : lim (Z.abs P mod m64)) by (unfold lim; zlia).
  assert (L2 : lim (Z.abs P / m64)) by (unfold lim; zlia).
  rewrite sgn64_lt0 by auto. wif He.
  { wpure. wcall HE. apply runtime_error_wp; auto. wfin.
    destruct (Z.ltb_spec (Z.abs P) h128); [zlia|]. exact H. }
  wnil. wpure. wnil.
  destruct (Z.ltb_spec (Z.abs P) h128); [|zlia].
  fold (neg_lo (Z.abs P mod m64)). fold (neg_hi (Z.abs P mod m64) (Z.abs P / m64)).
  rconv H.
  assert (Hsign : (Z.lxor (b2z (h64 <=? ah)) (b2z (h64 <=? bh)) =? 0) = negb (xorb (h64 <=? ah) (h64 <=? bh))).
  { destruct (h64 <=? ah), (h64 <=? bh); reflexivity. }
  rewrite Hsign, !SW.
  assert (SA : (h64 <=? ah) = (A <? 0)).
  { subst A. rewrite sval_alt by auto. unfold lim in *. destruct (Z.leb_spec h64 ah); lia. }
  assert (SB : (h64 <=? bh) = (B <? 0)).
  { subst B. rewrite sval_alt by auto. unfold lim in *. destruct (Z.leb_spec h64 bh); lia. }
  rewrite SA, SB.
  assert (HX : if xorb (A <? 0) (B <? 0) then P <= 0 else 0 <= P).
  { subst P. destruct (Z.ltb_spec A 0), (Z.ltb_spec B 0); cbn [xorb]; nia. }
  pose proof (neg_limbs _ _ L1 L2) as N.
  replace (val128 (Z.abs P mod m64) (Z.abs P / m64)) with (Z.abs P) in N by zlia.
  destruct (xorb (A <? 0) (B <? 0)).
  - unfold i128. rewrite pow128. replace (Z.abs P) with (- P) in N by lia.
    replace (Z.abs P) with (- P) by lia. rewrite Z.opp_involutive in N.
    rewrite <- N. apply u128_limbs. apply neg_lo_lim.
  - unfold i128. rewrite pow128, Z.mod_small by lia. unfold u128. rewrite pow64.
    replace (Z.abs P) with P by lia. reflexivity.
Qed.
End MulInt.
