(** * Proofs about multiplication. *)
From Coq Require Import ZArith String List Bool Lia.
Import ListNotations.
From Verif Require Import Wasm Std StdEnv WasmLogic WasmTac Spec ZBits ArithProofs BitProofs.
Open Scope Z_scope.

Lemma land32 x : Z.land x 4294967295 = x mod 4294967296.
Proof. change 4294967295 with (2 ^ 32 - 1). rewrite land_mask by lia. reflexivity. Qed.
Lemma lor32 x y : 0 <= y < 4294967296 -> Z.lor (x * 4294967296) y = x * 4294967296 + y.
Proof. intros. change 4294967296 with (2 ^ 32) at 1 2. apply lor_add; [lia|]. exact H. Qed.

Section Mul.
Context {HS : Type} (E : env HS) (HE : has_std E).
Implicit Types (st : store HS) (R : result HS -> Prop).
Ltac wfin := unfold qcall, qblock, qfunc; wcbn.

Lemma mul_int128_wp al ah bl bh st R :
  lim al -> lim ah -> lim bl -> lim bh ->
  R (RVals [VI64 ((al * bl) mod m64);
            VI64 ((al * bh + ah * bl + al * bl / m64) mod m64)] st) ->
  wpf E "stdlib.mul-int128" [VI64 al; VI64 ah; VI64 bl; VI64 bh] st R.
Proof.
  intros H1 H2 H3 H4 H. wenter HE. wpure. wnil. unfold lim in *.
  rewrite !land32.
  set (u1 := al mod 4294967296) in *. set (u2 := al / 4294967296) in *.
  set (v1 := bl mod 4294967296) in *. set (v2 := bl / 4294967296) in *.
  assert (Hal : al = u1 + 4294967296 * u2) by (subst u1 u2; zlia).
  assert (Hbl : bl = v1 + 4294967296 * v2) by (subst v1 v2; zlia).
  assert (Bu1 : 0 <= u1 <= 4294967295) by (subst u1; zlia).
  assert (Bu2 : 0 <= u2 <= 4294967295) by (subst u2; zlia).
  assert (Bv1 : 0 <= v1 <= 4294967295) by (subst v1; zlia).
  assert (Bv2 : 0 <= v2 <= 4294967295) by (subst v2; zlia).
  clearbody u1 u2 v1 v2.
  assert (P11 : 0 <= u1 * v1 <= 18446744065119617025) by nia.
  assert (P21 : 0 <= v1 * u2 <= 18446744065119617025) by nia.
  assert (P12 : 0 <= u1 * v2 <= 18446744065119617025) by nia.
  assert (P22 : 0 <= v2 * u2 <= 18446744065119617025) by nia.
  assert (Hp : al * bl = u1 * v1 + 4294967296 * (v1 * u2 + u1 * v2) + 18446744073709551616 * (v2 * u2)) by (subst; ring).
  rewrite Hp in H.
  set (p11 := u1 * v1) in *. set (p21 := v1 * u2) in *. set (p12 := u1 * v2) in *. set (p22 := v2 * u2) in *.
  set (x := al * bh) in *. set (y := ah * bl) in *.
  clearbody p11 p21 p12 p22 x y.
  rewrite (Z.mod_small p11) by lia. rewrite (Z.mod_small p21) by lia.
  rewrite (Z.mod_small p12) by lia. rewrite (Z.mod_small p22) by lia.
  pose proof (Z.div_mod p11 4294967296 ltac:(lia)) as D1.
  pose proof (Z.mod_pos_bound p11 4294967296 ltac:(lia)) as M1.
  set (q1 := p11 / 4294967296) in *. set (r1 := p11 mod 4294967296) in *. clearbody q1 r1.
  rewrite (Z.mod_small (q1 + p21)) by lia.
  pose proof (Z.div_mod (q1 + p21) 4294967296 ltac:(lia)) as D2.
  pose proof (Z.mod_pos_bound (q1 + p21) 4294967296 ltac:(lia)) as M2.
  set (q2 := (q1 + p21) / 4294967296) in *. set (r2 := (q1 + p21) mod 4294967296) in *. clearbody q2 r2.
  rewrite (Z.mod_small (r2 + p12)) by lia.
  pose proof (Z.div_mod (r2 + p12) 4294967296 ltac:(lia)) as D3.
  pose proof (Z.mod_pos_bound (r2 + p12) 4294967296 ltac:(lia)) as M3.
  replace (((r2 + p12) * 4294967296) mod 18446744073709551616) with (((r2 + p12) mod 4294967296) * 4294967296)
        by (clear; zlia).
  set (q3 := (r2 + p12) / 4294967296) in *. set (r3 := (r2 + p12) mod 4294967296) in *. clearbody q3 r3.
  rewrite lor32 by lia.
  replace (p11 + 4294967296 * (p21 + p12) + 18446744073709551616 * p22)
    with ((r3 * 4294967296 + r1) + (p22 + q2 + q3) * 18446744073709551616) in H by lia.
  rewrite Z.mod_add, Z.div_add in H by lia.
  rewrite (Z.mod_small (r3 * 4294967296 + r1)), (Z.div_small (r3 * 4294967296 + r1)) in H by lia.
  rconv H.
  clear; zlia.
Qed.

Lemma mul_limbs al ah bl bh : lim al -> lim ah -> lim bl -> lim bh ->
  (val128 al ah * val128 bl bh) mod m128 =
  val128 ((al * bl) mod m64) ((al * bh + ah * bl + al * bl / m64) mod m64).
Proof.
  intros. change m128 with (m64 * m64).
  replace (val128 al ah * val128 bl bh) with
    (al * bl + (al * bh + ah * bl + ah * bh * m64) * m64) by ring.
  rewrite Z.rem_mul_r by lia. rewrite Z.mod_add, Z.div_add by lia. f_equal. f_equal.
  replace (al * bl / m64 + (al * bh + ah * bl + ah * bh * m64))
     with (al * bh + ah * bl + al * bl / m64 + (ah * bh) * m64) by ring.
  rewrite Z.mod_add by lia. reflexivity.
Qed.

Lemma mul_int128_wp' al ah bl bh st R :
  lim al -> lim ah -> lim bl -> lim bh ->
  R (RVals (u128 ((val128 al ah * val128 bl bh) mod m128)) st) ->
  wpf E "stdlib.mul-int128" [VI64 al; VI64 ah; VI64 bl; VI64 bh] st R.
Proof.
  intros H1 H2 H3 H4 H. apply mul_int128_wp; auto.
  rewrite mul_limbs, u128_limbs in H; auto. apply Z.mod_pos_bound; lia.
Qed.

Lemma log2_limbs al ah : lim al -> lim ah -> 0 < ah -> Z.log2 (val128 al ah) = 64 + Z.log2 ah.
Proof.
  unfold lim. intros. apply Z.log2_unique; [pose proof (Z.log2_nonneg ah); lia|].
  pose proof (Z.log2_spec ah H1) as [L U]. pose proof (Z.log2_nonneg ah).
  replace (Z.succ (64 + Z.log2 ah)) with (64 + Z.succ (Z.log2 ah)) by lia.
  rewrite !Z.pow_add_r, pow64 by lia. lia.
Qed.

Lemma clz_bound w z : 0 < w -> 0 <= z < 2 ^ w -> 0 <= clz w z <= w.
Proof.
  intros Hw Hz. unfold clz. destruct (Z.eqb_spec z 0); [lia|].
  pose proof (Z.log2_nonneg z). assert (Z.log2 z < w) by (apply Z.log2_lt_pow2; lia). lia.
Qed.

Lemma clz_int128_wp al ah st R :
  lim al -> lim ah ->
  R (RVals [VI32 (clz 128 (val128 al ah))] st) ->
  wpf E "clz-int128" [VI64 al; VI64 ah] st R.
Proof.
  intros H1 H2 H. wenter HE. wpure. wnil. rconv H. rewrite b2z_eq0.
  pose proof (clz_bound 64 al ltac:(lia) ltac:(rewrite pow64; exact H1)).
  pose proof (clz_bound 64 ah ltac:(lia) ltac:(rewrite pow64; exact H2)).
  destruct (Z.eqb_spec ah 0) as [->|]; cbn [negb].
  - replace (val128 al 0) with al by lia.
    transitivity (64 + clz 64 al); [|zlia].
    unfold clz. destruct (al =? 0); lia.
  - unfold lim in *. transitivity (clz 64 ah); [|zlia].
    unfold clz. destruct (Z.eqb_spec ah 0); [lia|]. destruct (Z.eqb_spec (val128 al ah) 0); [lia|].
    rewrite log2_limbs by (unfold lim; lia). lia.
Qed.

Lemma lor63 b x : lim b -> lim x -> Z.lor ((b * 9223372036854775808) mod m64) (x / 2) = (b mod 2) * 9223372036854775808 + x / 2.
Proof.
  unfold lim. intros. replace ((b * 9223372036854775808) mod m64) with ((b mod 2) * 2 ^ 63)
    by (change (2 ^ 63) with 9223372036854775808; zlia).
  rewrite lor_add; [reflexivity|lia|]. change (2 ^ 63) with 9223372036854775808. zlia.
Qed.

Lemma lor1 b x : lim b -> 0 <= x < 2 -> Z.lor ((b * 2) mod m64) x = (b * 2) mod m64 + x.
Proof.
  unfold lim. intros. replace ((b * 2) mod m64) with ((b mod 9223372036854775808) * 2 ^ 1)
    by (change (2 ^ 1) with 2; zlia).
  rewrite lor_add; [reflexivity|lia|]. change (2 ^ 1) with 2. lia.
Qed.

Lemma land1 x : Z.land x 1 = x mod 2.
Proof. change 1 with (2 ^ 1 - 1). rewrite land_mask by lia. reflexivity. Qed.

Lemma mul_uint_wp al ah bl bh st R :
  lim al -> lim ah -> lim bl -> lim bh ->
  R (if val128 al ah * val128 bl bh <? m128
     then RVals (u128 (val128 al ah * val128 bl bh)) st
     else err 0 st) ->
  wpf E "stdlib.mul-uint" [VI64 al; VI64 ah; VI64 bl; VI64 bh] st R.
Proof.
  intros H1 H2 H3 H4 H. wenter HE. wpure.
  wcall HE. apply clz_int128_wp; auto. wfin.
  wpure. wcall HE. apply clz_int128_wp; auto. wfin.
  wpure.
  set (A := val128 al ah) in *. set (B := val128 bl bh) in *.
  assert (HA : 0 <= A < m128) by (unfold lim in *; lia).
  assert (HB : 0 <= B < m128) by (unfold lim in *; lia).
  pose proof (clz_bound 128 A ltac:(lia) ltac:(rewrite pow128; exact HA)) as CA.
  pose proof (clz_bound 128 B ltac:(lia) ltac:(rewrite pow128; exact HB)) as CB.
  rewrite (Z.mod_small (clz 128 A + clz 128 B)) by lia.
  assert (Hlog : A <> 0 -> B <> 0 ->
     exists la lb, 0 <= la <= 127 /\ 0 <= lb <= 127 /\ clz 128 A = 127 - la /\ clz 128 B = 127 - lb
       /\ 2 ^ la <= A < 2 ^ (la + 1) /\ 2 ^ lb <= B < 2 ^ (lb + 1)).
  { intros NA NB. exists (Z.log2 A), (Z.log2 B). unfold clz in *.
    destruct (Z.eqb_spec A 0); [lia|]. destruct (Z.eqb_spec B 0); [lia|].
    pose proof (Z.log2_nonneg A). pose proof (Z.log2_nonneg B).
    pose proof (Z.log2_spec A). pose proof (Z.log2_spec B).
    rewrite <- !Z.add_1_r in *. lia. }
  assert (Z0 : A = 0 \/ B = 0 -> 128 <= clz 128 A + clz 128 B).
  { unfold clz in *. destruct (A =? 0) eqn:EA; destruct (B =? 0) eqn:EB; lia. }
  wif Hc.
  { (* cannot overflow *)
    assert (Hlt : A * B < m128).
    { destruct (Z.eq_dec A 0) as [->|NA]; [lia|]. destruct (Z.eq_dec B 0) as [->|NB]; [lia|].
      destruct (Hlog NA NB) as (la & lb & Hla & Hlb & Ea & Eb & PA & PB).
      apply Z.lt_le_trans with (2 ^ (la + 1) * 2 ^ (lb + 1)); [nia|].
      rewrite <- Z.pow_add_r by lia. rewrite <- pow128. apply Z.pow_le_mono_r; lia. }
    wpure. wcall HE. apply mul_int128_wp'; auto. fold A B. wfin. unfold u128; wcbn.
    wret. destruct (Z.ltb_spec (A * B) m128); [|lia].
    rewrite (Z.mod_small (A * B)) by nia. exact H. }
  wnil. wpure. wif Hd.
  { assert (Hge : m128 <= A * B).
    { destruct (Z.eq_dec A 0); [lia|]. destruct (Z.eq_dec B 0); [lia|].
      destruct (Hlog n n0) as (la & lb & Hla & Hlb & Ea & Eb & PA & PB).
      apply Z.le_trans with (2 ^ la * 2 ^ lb); [|nia].
      rewrite <- Z.pow_add_r by lia. rewrite <- pow128. apply Z.pow_le_mono_r; lia. }
    wpure. wcall HE. apply runtime_error_wp; auto. wfin.
    destruct (Z.ltb_spec (A * B) m128); [lia|]. exact H. }
  assert (NA : A <> 0) by lia. assert (NB : B <> 0) by lia.
  assert (HP : A * (B / 2) < m128).
  { destruct (Hlog NA NB) as (la & lb & Hla & Hlb & Ea & Eb & PA & PB).
    apply Z.lt_le_trans with (2 ^ (la + 1) * 2 ^ lb).
    - assert (B / 2 < 2 ^ lb).
      { apply Z.div_lt_upper_bound; [lia|]. rewrite Z.pow_add_r in PB by lia. lia. }
      assert (0 <= B / 2) by (apply Z.div_pos; lia). nia.
    - rewrite <- Z.pow_add_r by lia. rewrite <- pow128. apply Z.pow_le_mono_r; lia. }
  wnil. wpure.
  rewrite lor63 by auto. rewrite land1.
  wcall HE. apply mul_int128_wp'; try (unfold lim in *; zlia).
  fold A.
  replace (val128 (bh mod 2 * 9223372036854775808 + bl / 2) (bh / 2)) with (B / 2)
    by (unfold lim in *; subst B; zlia).
  set (P := A * (B / 2)) in *.
  assert (HP0 : 0 <= P) by (subst P; assert (0 <= B / 2) by (apply Z.div_pos; lia); nia).
  rewrite (Z.mul_comm (B / 2) A). fold P. rewrite (Z.mod_small P) by lia.
  wfin. unfold u128. rewrite pow64; wcbn. wpure.
  assert (HAB : A * B = 2 * P + A * (B mod 2)).
  { subst P. rewrite (Z.div_mod B 2) at 1 by lia. ring. }
  assert (HBm : B mod 2 = bl mod 2) by (unfold lim in *; subst B; zlia).
  assert (Hph : lim (P / m64)) by (unfold lim; zlia).
  rewrite sgn64_lt0 by auto. wif He.
  { wpure. wcall HE. apply runtime_error_wp; auto. wfin.
    destruct (Z.ltb_spec (A * B) m128); [|exact H].
    exfalso. assert (0 <= B mod 2 < 2) by (apply Z.mod_pos_bound; lia).
    assert (h128 <= P) by (clear - He; zlia). nia. }
  assert (HP2 : 2 * P < m128).
  { clear - He; zlia. }
  wnil. wpure.
  rewrite lor1 by (auto; zlia).
  replace ((bl mod 2) mod 4294967296) with (bl mod 2) by zlia.
  apply wp_if_eqz; intros Hf; wcbn.
  - wpure. wcall HE. apply add_uint_wp; auto; try (unfold lim in *; zlia).
    replace (val128 ((P mod 18446744073709551616 * 2) mod 18446744073709551616)
         ((P / 18446744073709551616 * 2) mod 18446744073709551616 + P mod 18446744073709551616 / 9223372036854775808))
      with (2 * P) by zlia. fold A. wfin.
    replace (B mod 2) with 1 in HAB by zlia.
    replace (A * B) with (2 * P + A) in H by lia.
    rsplit H; unfold err; wcbn; [|exact H].
    wpure. wnil. wpure. wnil. unfold u128 in H. rewrite pow64 in H. subst A. unfold lim in *. rconv H; zlia.
  - wnil. wpure. wnil. replace (B mod 2) with 0 in HAB by zlia.
    replace (A * B) with (2 * P) in H by lia.
    destruct (Z.ltb_spec (2 * P) m128); [|lia]. unfold u128 in H. rewrite pow64 in H. rconv H; zlia.
Qed.
End Mul.
