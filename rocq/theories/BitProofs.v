(** * Proofs about bitwise operators, shifts and int/uint conversions. *)
From Coq Require Import ZArith String List Bool Lia.
Import ListNotations.
From Verif Require Import Wasm Std StdEnv WasmLogic WasmTac Spec ZBits ArithProofs.
Open Scope Z_scope.

Notation val128 l h := (l + m64 * h).
Notation sval128 l h := (l + m64 * sgn64 h).

Lemma pow64 : 2 ^ 64 = m64. Proof. reflexivity. Qed.
Lemma pow128 : 2 ^ 128 = m128. Proof. reflexivity. Qed.

Lemma u128_limbs l h : lim l -> u128 (val128 l h) = [VI64 l; VI64 h].
Proof.
  unfold lim, u128. intros H. rewrite pow64. f_equal; [f_equal|f_equal; f_equal]; zlia.
Qed.

Section Bits.
Context {HS : Type} (E : env HS) (HE : has_std E).
Implicit Types (st : store HS) (R : result HS -> Prop).

Ltac wfin := unfold qcall, qblock, qfunc; wcbn.

Lemma bit_and_wp al ah bl bh st R :
  R (RVals [VI64 (Z.land al bl); VI64 (Z.land ah bh)] st) ->
  wpf E "stdlib.bit-and" [VI64 al; VI64 ah; VI64 bl; VI64 bh] st R.
Proof. intros H. wenter HE. wpure. wnil. exact H. Qed.

Lemma bit_or_wp al ah bl bh st R :
  R (RVals [VI64 (Z.lor al bl); VI64 (Z.lor ah bh)] st) ->
  wpf E "stdlib.bit-or" [VI64 al; VI64 ah; VI64 bl; VI64 bh] st R.
Proof. intros H. wenter HE. wpure. wnil. exact H. Qed.

Lemma bit_xor_wp al ah bl bh st R :
  R (RVals [VI64 (Z.lxor al bl); VI64 (Z.lxor ah bh)] st) ->
  wpf E "stdlib.bit-xor" [VI64 al; VI64 ah; VI64 bl; VI64 bh] st R.
Proof. intros H. wenter HE. wpure. wnil. exact H. Qed.

Lemma bit_not_wp al ah st R :
  lim al -> lim ah ->
  R (RVals [VI64 (m64 - 1 - al); VI64 (m64 - 1 - ah)] st) ->
  wpf E "stdlib.bit-not" [VI64 al; VI64 ah] st R.
Proof.
  intros H1 H2 H. wenter HE. wpure. wnil. unfold lim in *.
  change 18446744073709551615 with (2 ^ 64 - 1). rewrite !lxor_ones by (rewrite ?pow64; lia).
  exact H.
Qed.

Lemma to_uint_wp al ah st R :
  lim al -> lim ah ->
  R (if ah <? h64 then RVals [VI64 al; VI64 ah] st else err 1 st) ->
  wpf E "stdlib.to-uint" [VI64 al; VI64 ah] st R.
Proof.
  intros H1 H2 H. wenter HE. wpure. unfold lim in *.
  wif Hc.
  - wpure. wcall HE. apply runtime_error_wp; auto. wfin. rsplit H; [|exact H].
    unfold sgn64 in Hc. rewrite Heqb in Hc. cbn in Hc. lia.
  - wnil. wpure. wnil. rsplit H; [exact H|]. unfold sgn64 in Hc. rewrite Heqb in Hc. cbn in Hc. lia.
Qed.

Lemma to_int_wp al ah st R :
  lim al -> lim ah ->
  R (if ah <? h64 then RVals [VI64 al; VI64 ah] st else err 0 st) ->
  wpf E "stdlib.to-int" [VI64 al; VI64 ah] st R.
Proof.
  intros H1 H2 H. wenter HE. wpure. unfold lim in *.
  wif Hc.
  - wpure. wcall HE. apply runtime_error_wp; auto. wfin. rsplit H; [|exact H]. lia.
  - wnil. wpure. wnil. rsplit H; [exact H|]. lia.
Qed.

Lemma land127 x : Z.land x 127 = x mod 128.
Proof. change 127 with (2 ^ 7 - 1). rewrite land_mask by lia. reflexivity. Qed.

(** limbs of a left shift by less than 64 *)
Lemma shl_hi al ah s : lim al -> lim ah -> 0 < s < 64 ->
  Z.lor ((ah * 2 ^ s) mod m64) (al / 2 ^ (64 - s)) = (ah * 2 ^ s + al * 2 ^ s / m64) mod m64.
Proof.
  intros Hl Hh Hs. unfold lim in *.
  assert (E64 : m64 = 2 ^ (64 - s) * 2 ^ s) by (rewrite <- Z.pow_add_r by lia; replace (64 - s + s) with 64 by lia; reflexivity).
  assert (P1 : 0 < 2 ^ s) by (apply Z.pow_pos_nonneg; lia).
  assert (P2 : 0 < 2 ^ (64 - s)) by (apply Z.pow_pos_nonneg; lia).
  assert (B : 0 <= al / 2 ^ (64 - s) < 2 ^ s).
  { split; [apply Z.div_pos; lia|]. apply Z.div_lt_upper_bound; lia. }
  assert (D : al * 2 ^ s / m64 = al / 2 ^ (64 - s)).
  { rewrite E64. apply Z.div_mul_cancel_r; lia. }
  rewrite D.
  assert (M : (ah * 2 ^ s) mod m64 = (ah mod 2 ^ (64 - s)) * 2 ^ s).
  { rewrite E64. rewrite Z.mul_mod_distr_r by lia. reflexivity. }
  rewrite M, lor_add by lia.
  rewrite <- M. rewrite (Zplus_mod (ah * 2 ^ s)).
  rewrite (Z.mod_small (al / _) m64) by (split; [lia|]; assert (2 ^ s < 2 ^ 64) by (apply Z.pow_lt_mono_r; lia); rewrite pow64 in *; lia).
  symmetry. apply Z.mod_small. split; [pose proof (Z.mod_pos_bound (ah * 2 ^ s) m64); lia|].
  rewrite M. assert (0 <= ah mod 2 ^ (64 - s) < 2 ^ (64 - s)) by (apply Z.mod_pos_bound; lia).
  rewrite E64. nia.
Qed.

Lemma bit_shift_left_wp al ah bl bh st R :
  lim al -> lim ah -> lim bl -> lim bh ->
  R (RVals (u128 ((val128 al ah * 2 ^ (bl mod 128)) mod m128)) st) ->
  wpf E "stdlib.bit-shift-left" [VI64 al; VI64 ah; VI64 bl; VI64 bh] st R.
Proof.
  intros H1 H2 H3 H4 H. wenter HE. wpure. rewrite !land127. unfold lim in *.
  assert (Hs : 0 <= bl mod 128 < 128) by (apply Z.mod_pos_bound; lia).
  set (s := bl mod 128) in *.
  wif Hc.
  - wpure. wnil. wnil. rconv H. rewrite b2z_eq0.
    rewrite (Z.mod_small s 64) by lia.
    assert (P1 : 0 < 2 ^ s) by (apply Z.pow_pos_nonneg; lia).
    transitivity (u128 (val128 ((al * 2 ^ s) mod m64) ((ah * 2 ^ s + al * 2 ^ s / m64) mod m64))).
    { f_equal. change m128 with (m64 * m64).
      replace ((al + m64 * ah) * 2 ^ s) with (al * 2 ^ s + (ah * 2 ^ s) * m64) by ring.
      rewrite Z.rem_mul_r by lia. f_equal.
      - apply Z.mod_add; lia.
      - f_equal. rewrite Z.div_add by lia. f_equal. ring. }
    rewrite u128_limbs by (apply Z.mod_pos_bound; lia). req.
    destruct (Z.eqb_spec s 0) as [->|]; cbn [negb].
    + change (2 ^ 0) with 1. rewrite Z.lor_0_r. zlia.
    + replace (((64 - s) mod 18446744073709551616) mod 64) with (64 - s) by zlia.
      symmetry. apply shl_hi; unfold lim; lia.
  - wpure. wnil. wnil. rconv H.
    replace (((s - 64) mod 18446744073709551616) mod 64) with (s - 64) by zlia.
    transitivity (u128 (val128 0 ((al * 2 ^ (s - 64)) mod m64))).
    { f_equal. change m128 with (m64 * m64).
      replace (2 ^ s) with (2 ^ (s - 64) * m64)
        by (rewrite <- pow64, <- Z.pow_add_r by lia; f_equal; lia).
      replace ((al + m64 * ah) * (2 ^ (s - 64) * m64)) with (((al * 2 ^ (s - 64)) + (ah * 2 ^ (s - 64)) * m64) * m64) by ring.
      rewrite Z.mul_mod_distr_r by lia. rewrite Z.mod_add by lia. ring. }
    rewrite u128_limbs by (unfold lim; lia). req.
Qed.

Lemma shr_lo al x s : lim al -> 0 <= x -> 0 < s < 64 ->
  Z.lor (al / 2 ^ s) ((x * 2 ^ (64 - s)) mod m64) = al / 2 ^ s + (x mod 2 ^ s) * 2 ^ (64 - s).
Proof.
  intros Hl Hh Hs. unfold lim in *.
  assert (E64 : m64 = 2 ^ s * 2 ^ (64 - s)) by (rewrite <- Z.pow_add_r by lia; replace (s + (64 - s)) with 64 by lia; reflexivity).
  assert (P1 : 0 < 2 ^ s) by (apply Z.pow_pos_nonneg; lia).
  assert (P2 : 0 < 2 ^ (64 - s)) by (apply Z.pow_pos_nonneg; lia).
  rewrite Z.lor_comm.
  assert (M : (x * 2 ^ (64 - s)) mod m64 = (x mod 2 ^ s) * 2 ^ (64 - s)).
  { rewrite E64. rewrite Z.mul_mod_distr_r by lia. reflexivity. }
  rewrite M, lor_add; [lia|lia|].
  split; [apply Z.div_pos; lia|]. apply Z.div_lt_upper_bound; lia.
Qed.

Lemma shr_split al x s : lim al -> 0 < s < 64 ->
  (al + m64 * x) / 2 ^ s = al / 2 ^ s + (x mod 2 ^ s) * 2 ^ (64 - s) + m64 * (x / 2 ^ s).
Proof.
  intros Hl Hs. unfold lim in *.
  assert (E64 : m64 = 2 ^ (64 - s) * 2 ^ s) by (rewrite <- Z.pow_add_r by lia; replace (64 - s + s) with 64 by lia; reflexivity).
  assert (P1 : 0 < 2 ^ s) by (apply Z.pow_pos_nonneg; lia).
  rewrite E64 at 1. replace (al + 2 ^ (64 - s) * 2 ^ s * x) with (al + (2 ^ (64 - s) * x) * 2 ^ s) by ring.
  rewrite Z.div_add by lia.
  rewrite (Z.div_mod x (2 ^ s)) at 1 by lia. rewrite E64. ring.
Qed.

Lemma bit_shift_right_uint_wp al ah bl bh st R :
  lim al -> lim ah -> lim bl -> lim bh ->
  R (RVals (u128 (val128 al ah / 2 ^ (bl mod 128))) st) ->
  wpf E "stdlib.bit-shift-right-uint" [VI64 al; VI64 ah; VI64 bl; VI64 bh] st R.
Proof.
  intros H1 H2 H3 H4 H. wenter HE. wpure. rewrite !land127. unfold lim in *.
  assert (Hs : 0 <= bl mod 128 < 128) by (apply Z.mod_pos_bound; lia).
  set (s := bl mod 128) in *.
  wif Hc.
  - wpure. wnil. wnil. rconv H. rewrite b2z_eq0.
    rewrite (Z.mod_small s 64) by lia.
    assert (P1 : 0 < 2 ^ s) by (apply Z.pow_pos_nonneg; lia).
    destruct (Z.eqb_spec s 0) as [->|]; cbn [negb].
    + change (2 ^ 0) with 1. rewrite !Z.div_1_r, Z.lor_0_r. apply u128_limbs; auto.
    + rewrite (Z.mod_small (64 - s)) by lia. rewrite (Z.mod_small (64 - s)) by lia.
      rewrite shr_lo, shr_split by (unfold lim; lia).
      apply u128_limbs. unfold lim.
      assert (E64 : m64 = 2 ^ s * 2 ^ (64 - s)) by (rewrite <- Z.pow_add_r by lia; replace (s + (64 - s)) with 64 by lia; reflexivity).
      assert (P2 : 0 < 2 ^ (64 - s)) by (apply Z.pow_pos_nonneg; lia).
      assert (0 <= al / 2 ^ s < 2 ^ (64 - s)).
      { split; [apply Z.div_pos; lia|]. apply Z.div_lt_upper_bound; lia. }
      assert (0 <= ah mod 2 ^ s < 2 ^ s) by (apply Z.mod_pos_bound; lia).
      rewrite E64. nia.
  - wpure. wnil. wnil. rconv H.
    rewrite (Z.mod_small (s - 64) 18446744073709551616) by lia. rewrite (Z.mod_small (s - 64)) by lia.
    assert (P1 : 0 < 2 ^ (s - 64)) by (apply Z.pow_pos_nonneg; lia).
    transitivity (u128 (val128 (ah / 2 ^ (s - 64)) 0)).
    { f_equal. replace (2 ^ s) with (m64 * 2 ^ (s - 64))
        by (rewrite <- pow64, <- Z.pow_add_r by lia; f_equal; lia).
      rewrite <- Z.div_div by lia. replace ((al + m64 * ah) / m64) with ah by zlia. ring. }
    apply u128_limbs. unfold lim.
    split; [apply Z.div_pos; lia|]. apply Z.div_lt_upper_bound; nia.
Qed.

Lemma sgn64_mod x : lim x -> sgn64 x mod m64 = x.
Proof. unfold lim, sgn64. intros. destruct (Z.ltb_spec x h64); zlia. Qed.
Lemma sgn64_range x : lim x -> - h64 <= sgn64 x < h64.
Proof. unfold lim, sgn64. intros. destruct (Z.ltb_spec x h64); lia. Qed.

Lemma sgn64_mulmod x s : lim x -> 0 < s < 64 ->
  (x * 2 ^ (64 - s)) mod m64 = ((sgn64 x) mod 2 ^ s) * 2 ^ (64 - s).
Proof.
  intros Hx Hs.
  assert (E64 : m64 = 2 ^ s * 2 ^ (64 - s)) by (rewrite <- Z.pow_add_r by lia; replace (s + (64 - s)) with 64 by lia; reflexivity).
  assert (P1 : 0 < 2 ^ s) by (apply Z.pow_pos_nonneg; lia).
  assert (P2 : 0 < 2 ^ (64 - s)) by (apply Z.pow_pos_nonneg; lia).
  rewrite E64 at 1. rewrite Z.mul_mod_distr_r by lia. f_equal.
  unfold sgn64. destruct (x <? h64); [reflexivity|].
  rewrite E64. replace (x - 2 ^ s * 2 ^ (64 - s)) with (x + (- 2 ^ (64 - s)) * 2 ^ s) by ring.
  rewrite Z.mod_add by lia. reflexivity.
Qed.

Lemma i128_limbs l h : lim l -> lim h -> i128 (sval128 l h) = [VI64 l; VI64 h].
Proof.
  intros Hl Hh. unfold i128. rewrite pow128.
  replace (sval128 l h mod m128) with (val128 l h); [apply u128_limbs; auto|].
  unfold lim, sgn64 in *. destruct (Z.ltb_spec h h64); zlia.
Qed.

Lemma i128_limbs' l x : lim l -> i128 (l + m64 * x) = [VI64 l; VI64 (x mod m64)].
Proof.
  intros Hl. unfold i128, lim in *. rewrite pow128.
  replace ((l + m64 * x) mod m128) with (l + m64 * (x mod m64)); [apply u128_limbs; auto|].
  change m128 with (m64 * m64). rewrite Z.rem_mul_r by lia.
  f_equal; [zlia|]. f_equal. f_equal. zlia.
Qed.

Lemma bit_shift_right_int_wp al ah bl bh st R :
  lim al -> lim ah -> lim bl -> lim bh ->
  R (RVals (i128 (sval128 al ah / 2 ^ (bl mod 128))) st) ->
  wpf E "stdlib.bit-shift-right-int" [VI64 al; VI64 ah; VI64 bl; VI64 bh] st R.
Proof.
  intros H1 H2 H3 H4 H. wenter HE. wpure. rewrite !land127.
  pose proof (sgn64_range ah H2) as Hsg. pose proof (sgn64_mod ah H2) as Hsm. unfold lim in H1, H3.
  assert (Hs : 0 <= bl mod 128 < 128) by (apply Z.mod_pos_bound; lia).
  set (s := bl mod 128) in *.
  wif Hc.
  - wpure. wnil. wnil. rconv H. rewrite b2z_eq0.
    rewrite (Z.mod_small s 64) by lia.
    assert (P1 : 0 < 2 ^ s) by (apply Z.pow_pos_nonneg; lia).
    destruct (Z.eqb_spec s 0) as [->|]; cbn [negb].
    + change (2 ^ 0) with 1. rewrite !Z.div_1_r, Z.lor_0_r. rewrite i128_limbs' by (unfold lim; lia). reflexivity.
    + rewrite (Z.mod_small (64 - s) 18446744073709551616) by lia. rewrite (Z.mod_small (64 - s)) by lia.
      rewrite shr_split by (unfold lim; lia).
      rewrite i128_limbs'.
      * req. rewrite Z.lor_comm, sgn64_mulmod by (auto; lia).
        assert (E64 : m64 = 2 ^ s * 2 ^ (64 - s)) by (rewrite <- Z.pow_add_r by lia; replace (s + (64 - s)) with 64 by lia; reflexivity).
        rewrite lor_add; [lia|lia|]. split; [apply Z.div_pos; lia|]. apply Z.div_lt_upper_bound; lia.
      * assert (E64 : m64 = 2 ^ s * 2 ^ (64 - s)) by (rewrite <- Z.pow_add_r by lia; replace (s + (64 - s)) with 64 by lia; reflexivity).
        assert (P2 : 0 < 2 ^ (64 - s)) by (apply Z.pow_pos_nonneg; lia).
        assert (0 <= al / 2 ^ s < 2 ^ (64 - s)).
        { split; [apply Z.div_pos; lia|]. apply Z.div_lt_upper_bound; lia. }
        assert (0 <= sgn64 ah mod 2 ^ s < 2 ^ s) by (apply Z.mod_pos_bound; lia).
        unfold lim. rewrite E64. nia.
  - wpure. wnil. wnil. rconv H.
    rewrite (Z.mod_small (s - 64) 18446744073709551616) by lia. rewrite (Z.mod_small (s - 64)) by lia.
    assert (P1 : 0 < 2 ^ (s - 64)) by (apply Z.pow_pos_nonneg; lia).
    set (y := sgn64 ah / 2 ^ (s - 64)).
    assert (Hy : - h64 <= y < h64).
    { subst y. split; [apply Z.div_le_lower_bound; nia|]. apply Z.div_lt_upper_bound; nia. }
    transitivity (i128 (y mod m64 + m64 * (y / m64))).
    { f_equal. replace (2 ^ s) with (m64 * 2 ^ (s - 64))
        by (rewrite <- pow64, <- Z.pow_add_r by lia; f_equal; lia).
      rewrite <- Z.div_div by lia. replace ((al + m64 * sgn64 ah) / m64) with (sgn64 ah) by zlia.
      fold y. zlia. }
    rewrite i128_limbs' by (apply Z.mod_pos_bound; lia). req.
    replace (y / m64) with (sgn64 ah / 9223372036854775808); [reflexivity|].
    subst y. destruct (Z.ltb_spec (sgn64 ah) 0).
    + transitivity (-1); [zlia|].
      assert (- h64 <= sgn64 ah / 2 ^ (s - 64) < 0).
      { split; [apply Z.div_le_lower_bound; nia|]. apply Z.div_lt_upper_bound; nia. }
      zlia.
    + transitivity 0; [zlia|].
      assert (0 <= sgn64 ah / 2 ^ (s - 64) < h64).
      { split; [apply Z.div_pos; lia|]. apply Z.div_lt_upper_bound; nia. }
      zlia.
Qed.

End Bits.
