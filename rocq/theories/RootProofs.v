(** * Proofs about log2 and integer square root. *)
From Coq Require Import ZArith String List Bool Lia.
Import ListNotations.
From Verif Require Import Wasm Std StdEnv WasmLogic WasmTac Spec ZBits ArithProofs BitProofs MulProofs MulIntProofs DivProofs.
Open Scope Z_scope.

Lemma lxor63 x : 0 <= x < 64 -> Z.lxor x 63 = 63 - x.
Proof. intros. change 63 with (2 ^ 6 - 1). apply lxor_ones; [lia|exact H]. Qed.
Lemma lxor127 x : 0 <= x < 128 -> Z.lxor x 127 = 127 - x.
Proof. intros. change 127 with (2 ^ 7 - 1). apply lxor_ones; [lia|exact H]. Qed.

Section Root.
Context {HS : Type} (E : env HS) (HE : has_std E).
Implicit Types (st : store HS) (R : result HS -> Prop).
Ltac wfin := unfold qcall, qblock, qfunc; wcbn.

Lemma log2_wp al ah st R :
  lim al -> lim ah -> val128 al ah <> 0 ->
  R (RVals [VI64 (Z.log2 (val128 al ah))] st) ->
  wpf E "log2" [VI64 al; VI64 ah] st R.
Proof.
  intros H1 H2 Hnz H. wenter HE. wpure. wnil. rconv H. rewrite b2z_eq0.
  pose proof (clz_bound 64 al ltac:(lia) ltac:(rewrite pow64; exact H1)).
  pose proof (clz_bound 64 ah ltac:(lia) ltac:(rewrite pow64; exact H2)).
  unfold lim in *. destruct (Z.eqb_spec ah 0) as [->|]; cbn [negb].
  - replace (val128 al 0) with al by lia.
    unfold clz in *. destruct (Z.eqb_spec al 0); [lia|]. pose proof (Z.log2_nonneg al).
    rewrite lxor63 by lia. lia.
  - unfold clz in *. destruct (Z.eqb_spec ah 0); [lia|]. pose proof (Z.log2_nonneg ah).
    rewrite log2_limbs by (unfold lim; lia). rewrite lxor127 by lia. lia.
Qed.

Lemma log2_uint_wp al ah st R :
  lim al -> lim ah ->
  R (if val128 al ah =? 0 then err 3 st else RVals (u128 (Z.log2 (val128 al ah))) st) ->
  wpf E "stdlib.log2-uint" [VI64 al; VI64 ah] st R.
Proof.
  intros H1 H2 H. wenter HE. wpure. rewrite lor_eqb0. wif Hc.
  { wpure. wcall HE. apply runtime_error_wp; auto. wfin.
    destruct (Z.eqb_spec (val128 al ah) 0); [exact H|lia]. }
  wnil. wpure. wcall HE. unfold lim in *. destruct (Z.eqb_spec (val128 al ah) 0); [lia|].
  apply log2_wp; auto. wfin. wpure. wnil.
  unfold u128 in H. rewrite pow64 in H. pose proof (Z.log2_nonneg (val128 al ah)).
  assert (Z.log2 (val128 al ah) < 128) by (apply Z.log2_lt_pow2; [lia|rewrite pow128; lia]).
  rconv H; zlia.
Qed.

Lemma log2_int_wp al ah st R :
  lim al -> lim ah ->
  R (if sval128 al ah <=? 0 then err 3 st else RVals (u128 (Z.log2 (sval128 al ah))) st) ->
  wpf E "stdlib.log2-int" [VI64 al; VI64 ah] st R.
Proof.
  intros H1 H2 H. wenter HE. wpure. wcall HE. apply le_int_wp; auto using lim0. wfin.
  change (sval128 0 0) with 0. wif Hc.
  { wpure. wcall HE. apply runtime_error_wp; auto. wfin. rewrite Hc in H. exact H. }
  rewrite Hc in H. wnil. wpure. wcall HE. rewrite sval_alt in * by auto. unfold lim in *.
  destruct (Z.leb_spec h64 ah); [lia|].
  apply log2_wp; auto; [lia|]. wfin. wpure. wnil.
  unfold u128 in H. rewrite pow64 in H. pose proof (Z.log2_nonneg (val128 al ah)).
  assert (Z.log2 (val128 al ah) < 128) by (apply Z.log2_lt_pow2; [lia|rewrite pow128; lia]).
  rconv H; zlia.
Qed.

(** square root digit recurrence at digit [j] *)
Definition sq_inv (N j n c d : Z) : Prop :=
  exists s0, let s := s0 * 2 ^ (j + 1) in
    0 <= s0 /\ 0 <= j <= 63 /\ s + 2 ^ (j + 1) <= m64 /\
    n = N - s * s /\ 0 <= n /\ c = s * 2 ^ (j + 1) /\ d = 2 ^ j * 2 ^ j /\
    N < (s + 2 ^ (j + 1)) * (s + 2 ^ (j + 1)).

Lemma sq_step N j n c d :
  0 <= N < m128 -> sq_inv N j n c d ->
  c + d < m128 /\ 0 <= c < m128 /\ 0 <= d < m128 /\ 0 <= n < m128 /\ (c / 2) + d < m128 /\
  let n' := if c + d <=? n then n - (c + d) else n in
  let c' := if c + d <=? n then c / 2 + d else c / 2 in
  if d / 4 =? 0 then c' = Z.sqrt N else 0 < j /\ sq_inv N (j - 1) n' c' (d / 4).
Proof.
  intros HN (s0 & H0 & Hj & Hs & Hn & Hn0 & Hc & Hd & HU).
  assert (PT : 2 ^ (j + 1) = 2 * 2 ^ j) by (rewrite Z.pow_add_r by lia; lia).
  rewrite PT in *. assert (T0 : 0 < 2 ^ j) by (apply Z.pow_pos_nonneg; lia).
  set (T := 2 ^ j) in *. set (s := s0 * (2 * T)) in *.
  assert (Hsn : 0 <= s) by (subst s; nia).
  assert (Hc2 : c / 2 = s * T). { rewrite Hc. symmetry. apply Z.div_unique with (r := 0); [lia|ring]. }
  assert (Hsq : (s + T) * (s + T) < m128).
  { apply Z.le_lt_trans with ((m64 - T) * (m64 - T)); [nia|]. nia. }
  assert (B1 : c + d < m128) by nia.
  split; [exact B1|]. split; [nia|]. split; [nia|]. split; [nia|].
  split; [nia|]. cbv zeta.
  assert (Hjj : j = 0 \/ 0 < j) by lia. destruct Hjj as [->|Hj0].
  - change (2 ^ 0) with 1 in *. subst T. rewrite Hd. change (1 * 1 / 4 =? 0) with true. cbv iota.
    rewrite Hc2. symmetry. apply Z.sqrt_unique. unfold Z.succ.
    destruct (Z.leb_spec (c + 1 * 1) n); nia.
  - assert (ET : T = 2 * 2 ^ (j - 1)) by (subst T; replace j with (1 + (j - 1)) at 1 by lia; rewrite Z.pow_add_r by lia; lia).
    assert (T1 : 0 < 2 ^ (j - 1)) by (apply Z.pow_pos_nonneg; lia).
    assert (Hd4 : d / 4 = 2 ^ (j - 1) * 2 ^ (j - 1)).
    { rewrite Hd, ET. symmetry. apply Z.div_unique with (r := 0); [lia|ring]. }
    rewrite Hd4. destruct (Z.eqb_spec (2 ^ (j - 1) * 2 ^ (j - 1)) 0); [nia|]. split; [lia|].
    destruct (Z.leb_spec (c + d) n) as [G|G].
    + exists (2 * s0 + 1). replace (j - 1 + 1) with j by lia. fold T. cbv zeta.
      replace ((2 * s0 + 1) * T) with (s + T) by (subst s; ring).
      rewrite Hc2. repeat split; try lia; try nia.
    + exists (2 * s0). replace (j - 1 + 1) with j by lia. fold T. cbv zeta.
      replace (2 * s0 * T) with s by (subst s; ring).
      rewrite Hc2. repeat split; try lia; try nia.
Qed.

Lemma lor62 b x : lim b -> lim x -> Z.lor ((b * 4611686018427387904) mod m64) (x / 4) = (b mod 4) * 4611686018427387904 + x / 4.
Proof.
  unfold lim. intros. replace ((b * 4611686018427387904) mod m64) with ((b mod 4) * 2 ^ 62)
    by (change (2 ^ 62) with 4611686018427387904; zlia).
  rewrite lor_add; [reflexivity|lia|]. change (2 ^ 62) with 4611686018427387904. zlia.
Qed.

Lemma pow4 j : 0 <= j -> 4 ^ j = 2 ^ j * 2 ^ j.
Proof. intros. change 4 with (2 * 2). rewrite Z.pow_mul_l. reflexivity. Qed.

Definition sq_tail := match f_sqrti_uint with mkfunc _ _ _ b => skipn 12 b end.

Lemma sq_main N st R dl dh j x y :
  0 <= j <= 63 -> lim dl -> lim dh -> val128 dl dh = 4 ^ j -> 0 < N < m128 -> N < 4 ^ (j + 1) ->
  R (RVals (u128 (Z.sqrt N)) st) ->
  wp E sq_tail (mkcfg [VI64 (N mod m64); VI64 (N / m64); VI64 dl; VI64 dh; VI64 0; VI64 0; VI64 x; VI64 y] [] st)
    (fun o => R (exit_func 2 o)).
Proof.
  intros Hj Ll Lh Hd HN HN4 H. unfold sq_tail, f_sqrti_uint. cbn [skipn].
  apply (wp_loop0 E (fun z s => exists nl nh dl dh cl ch x y, 0 <= z <= 63 /\
     lim nl /\ lim nh /\ lim dl /\ lim dh /\ lim cl /\ lim ch /\
     s = mkcfg [VI64 nl; VI64 nh; VI64 dl; VI64 dh; VI64 cl; VI64 ch; VI64 x; VI64 y] [] st /\
     sq_inv N z (val128 nl nh) (val128 cl ch) (val128 dl dh))) with (z := j); [lia| |].
  { exists (N mod m64), (N / m64), dl, dh, 0, 0, x, y. split; [lia|].
    split; [unfold lim; zlia|]. split; [unfold lim; zlia|]. repeat (split; [first [assumption|apply lim0|reflexivity]|]).
    exists 0. cbv zeta. rewrite !Z.mul_0_l, !Z.add_0_l, Hd, pow4 by lia. rewrite pow4 in HN4 by lia.
    replace (val128 (N mod m64) (N / m64)) with N by zlia.
    assert (2 ^ (j + 1) <= m64) by (rewrite <- pow64; apply Z.pow_le_mono_r; lia).
    repeat split; lia. }
  intros z ls st1 Hz (nl & nh & dl1 & dh1 & cl & ch & x1 & y1 & Hz2 & L1 & L2 & L3 & L4 & L5 & L6 & Es & HI). injection Es as -> ->.
  pose proof (sq_step N z _ _ _ ltac:(lia) HI) as (B1 & B2 & B3 & B4 & B5 & HSt). cbv zeta in HSt.
  clear HI. wpure. wcall HE. apply add_int128_wp; auto. wfin. wpure. rewrite lor63 by auto.
  set (c2l := ch mod 2 * 9223372036854775808 + cl / 2) in *. set (c2h := ch / 2) in *.
  assert (M1 : lim c2l) by (subst c2l; unfold lim in *; clear - L5 L6; zlia).
  assert (M2 : lim c2h) by (subst c2h; unfold lim in *; clear - L5 L6; zlia).
  assert (M3 : val128 c2l c2h = val128 cl ch / 2) by (subst c2l c2h; unfold lim in *; clear - L5 L6; zlia).
  rewrite <- M3 in *.
  set (tl := (cl + dl1) mod m64) in *. set (th := (ch + dh1 + (cl + dl1) / m64) mod m64) in *.
  assert (T1 : lim tl) by (subst tl; unfold lim; clear; zlia).
  assert (T2 : lim th) by (subst th; unfold lim; clear; zlia).
  assert (T3 : val128 tl th = val128 cl ch + val128 dl1 dh1).
  { subst tl th. unfold lim in *. set (xx := cl + dl1) in *. assert (cl = xx - dl1) by lia. clearbody xx. subst cl.
    clear - B1 B2 B3 L3 L4 L6. zlia. }
  rewrite <- T3 in *. clearbody c2l c2h tl th. clear M3 T3.
  wcall HE. apply ge_uint_wp; auto. wfin. rewrite Z.geb_leb.
  match goal with |- wp _ _ _ ?Q => set (QQ := Q) end.
  set (n' := if val128 tl th <=? val128 nl nh then val128 nl nh - val128 tl th else val128 nl nh) in *.
  set (c' := if val128 tl th <=? val128 nl nh then val128 c2l c2h + val128 dl1 dh1 else val128 c2l c2h) in *.
  assert (TAIL : forall n2l n2h c3l c3h, lim n2l -> lim n2h -> lim c3l -> lim c3h ->
    val128 n2l n2h = n' -> val128 c3l c3h = c' ->
    wp E [LGet 3; Const (VI64 62); B64 Shl; LGet 2; Const (VI64 2); B64 ShrU; B64 Or; LSet 2; LGet 3;
    Const (VI64 2); B64 ShrU; LSet 3; LGet 2; LGet 3; B64 Or; Const (VI64 0); R64 Ne; BrIf 0]
     (mkcfg [VI64 n2l; VI64 n2h; VI64 dl1; VI64 dh1; VI64 c3l; VI64 c3h; VI64 tl; VI64 th] [] st) QQ).
  { clearbody n' c'. intros n2l n2h c3l c3h K1 K2 K3 K4 K5 K6. wpure. rewrite lor62 by auto.
    set (d2l := dh1 mod 4 * 4611686018427387904 + dl1 / 4) in *. set (d2h := dh1 / 4) in *.
    assert (O1 : lim d2l) by (subst d2l; unfold lim in *; clear - L3 L4; zlia).
    assert (O2 : lim d2h) by (subst d2h; unfold lim in *; clear - L3 L4; zlia).
    assert (O3 : val128 d2l d2h = val128 dl1 dh1 / 4) by (subst d2l d2h; unfold lim in *; clear - L3 L4; zlia).
    rewrite <- O3 in HSt. clearbody d2l d2h. clear O3.
    rewrite lor_eqb0. replace (negb ((d2l =? 0) && (d2h =? 0))) with (negb (val128 d2l d2h =? 0)).
    2:{ unfold lim in *. clear - O1 O2. destruct (Z.eqb_spec d2l 0), (Z.eqb_spec d2h 0), (Z.eqb_spec (val128 d2l d2h) 0); cbn; lia. }
    destruct (Z.eqb_spec (val128 d2l d2h) 0).
    - wbrif Hb; try discriminate. subst QQ. wnil. unfold qloop; wcbn. wpure. wnil. rewrite <- HSt, <- K6 in H.
      rewrite u128_limbs in H by auto. exact H.
    - wbrif Hb; try discriminate. subst QQ. wfin. destruct HSt as (Hz0 & HSt). exists (z - 1). split; [lia|].
      exists n2l, n2h, d2l, d2h, c3l, c3h, tl, th. rewrite K5, K6.
      repeat (split; [first [assumption|lia|reflexivity]|]). exact HSt. }
  clearbody QQ.
  destruct (Z.leb_spec (val128 tl th) (val128 nl nh)) as [G|G]; wif Hx; try discriminate;
    [|wnil; apply TAIL; auto].
  clear HSt. wpure. wcall HE. apply sub_int128_wp; auto. wfin. wpure. wcall HE. apply add_int128_wp; auto. wfin. wpure. wnil.
  apply TAIL; try (unfold lim; apply Z.mod_pos_bound; lia).
  - subst n'. unfold lim in *. set (xx := nl - tl) in *. assert (nl = xx + tl) by lia. clearbody xx. subst nl.
    clear - G B4 T1 T2 L2. zlia.
  - subst c'. unfold lim in *. set (xx := c2l + dl1) in *. assert (c2l = xx - dl1) by lia. clearbody xx. subst c2l.
    clear - B5 B3 L3 L4 M2 M1. zlia.
Qed.

Lemma sqrti_uint_wp al ah st R :
  lim al -> lim ah ->
  R (RVals (u128 (Z.sqrt (val128 al ah))) st) ->
  wpf E "stdlib.sqrti-uint" [VI64 al; VI64 ah] st R.
Proof.
  intros H1 H2 H. wenter HE. wpure. rewrite lor_eqb0.
  set (N := val128 al ah) in *.
  assert (El : al = N mod m64) by (subst N; unfold lim in *; zlia).
  assert (Eh : ah = N / m64) by (subst N; unfold lim in *; zlia).
  wif Hc.
  { wpure. wret. assert (HN : N = 0) by (subst N; lia). rewrite HN in H. exact H. }
  assert (HN : 0 < N < m128) by (subst N; unfold lim in *; lia).
  wnil. wpure. wif Hd.
  - wpure.
    apply (wp_loop0 E (fun z s => exists x, 0 <= z <= 31 /\
      s = mkcfg [VI64 al; VI64 0; VI64 x; VI64 (4 ^ z); VI64 0; VI64 0; VI64 0; VI64 0] [] st /\
      N < 4 ^ (z + 1))) with (z := 31); [lia| |].
    { exists 0. split; [lia|]. split; [apply Z.eqb_eq in Hd; rewrite Hd; reflexivity|].
      change (4 ^ (31 + 1)) with m64. subst N; unfold lim in *; lia. }
    intros z ls st1 Hz (x & Hz2 & Es & HI). injection Es as -> ->.
    assert (P4 : 0 < 4 ^ z) by (apply Z.pow_pos_nonneg; lia).
    assert (P4m : 4 ^ z <= 4 ^ 31) by (apply Z.pow_le_mono_r; lia). change (4 ^ 31) with 4611686018427387904 in P4m.
    wpure. wbrif Hb.
    + wnil. unfold qloop; wcbn. wpure. wnil.
      pose proof (sq_main N st R (4 ^ z) 0 z 0 0 ltac:(lia) ltac:(unfold lim; lia) lim0 ltac:(lia) HN HI H) as K.
      rewrite <- El in K. rewrite <- Eh in K. apply Z.eqb_eq in Hd. rewrite Hd in K. exact K.
    + unfold qloop; wcbn. assert (z <> 0) by (intros ->; change (4 ^ 0) with 1 in Hb; lia).
      exists (z - 1). split; [lia|]. exists (4 ^ z). split; [lia|].
      assert (Ez : 4 ^ z = 4 * 4 ^ (z - 1)) by (replace z with (1 + (z - 1)) at 1 by lia; rewrite Z.pow_add_r by lia; lia).
      split.
      * replace (4 ^ z / 4) with (4 ^ (z - 1)) by (rewrite Ez; zlia). reflexivity.
      * replace (z - 1 + 1) with z by lia. subst N; lia.
  - wpure.
    apply (wp_loop0 E (fun z s => exists x, 0 <= z <= 31 /\
      s = mkcfg [VI64 al; VI64 ah; VI64 (4 ^ z); VI64 x; VI64 0; VI64 0; VI64 0; VI64 0] [] st /\
      ah < 4 ^ (z + 1))) with (z := 31); [lia| |].
    { exists 0. split; [lia|]. split; [reflexivity|].
      change (4 ^ (31 + 1)) with m64. unfold lim in *; lia. }
    intros z ls st1 Hz (x & Hz2 & Es & HI). injection Es as -> ->.
    assert (P4 : 0 < 4 ^ z) by (apply Z.pow_pos_nonneg; lia).
    assert (P4m : 4 ^ z <= 4 ^ 31) by (apply Z.pow_le_mono_r; lia). change (4 ^ 31) with 4611686018427387904 in P4m.
    wpure. wbrif Hb.
    + wnil. unfold qloop; wcbn. wpure. wnil.
      assert (K1 : val128 0 (4 ^ z) = 4 ^ (z + 32)) by (rewrite Z.pow_add_r by lia; change (4 ^ 32) with m64; lia).
      assert (K2 : N < 4 ^ (z + 32 + 1)).
      { replace (z + 32 + 1) with (32 + (z + 1)) by lia. rewrite Z.pow_add_r by lia. change (4 ^ 32) with m64.
        subst N. unfold lim in *. lia. }
      pose proof (sq_main N st R 0 (4 ^ z) (z + 32) 0 0 ltac:(lia) lim0 ltac:(unfold lim; lia) K1 HN K2 H) as K.
      rewrite <- El in K. rewrite <- Eh in K. exact K.
    + unfold qloop; wcbn. assert (z <> 0) by (intros ->; change (4 ^ 0) with 1 in Hb; unfold lim in *; lia).
      exists (z - 1). split; [lia|]. exists (4 ^ z). split; [lia|].
      assert (Ez : 4 ^ z = 4 * 4 ^ (z - 1)) by (replace z with (1 + (z - 1)) at 1 by lia; rewrite Z.pow_add_r by lia; lia).
      split.
      * replace (4 ^ z / 4) with (4 ^ (z - 1)) by (rewrite Ez; zlia). reflexivity.
      * replace (z - 1 + 1) with z by lia. lia.
Qed.

Lemma sqrti_int_wp al ah st R :
  lim al -> lim ah ->
  R (if sval128 al ah <? 0 then err 4 st else RVals (u128 (Z.sqrt (sval128 al ah))) st) ->
  wpf E "stdlib.sqrti-int" [VI64 al; VI64 ah] st R.
Proof.
  intros H1 H2 H. wenter HE. wpure. rewrite sgn64_lt0 by auto. rewrite <- sval_sign in H by auto. wif Hc.
  { wpure. wcall HE. apply runtime_error_wp; auto. wfin. rewrite Hc in H. exact H. }
  rewrite sval_alt in H by auto. rewrite Hc in H.
  wnil. wpure. wcall HE. apply sqrti_uint_wp; auto. wfin. unfold u128 in *; wcbn. wnil. exact H.
Qed.
End Root.
