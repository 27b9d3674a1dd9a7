(** * Proofs about exponentiation. *)
From Coq Require Import ZArith String List Bool Lia Znumtheory Zpow_facts.
Import ListNotations.
From Verif Require Import Wasm Std StdEnv WasmLogic WasmTac Spec ZBits ArithProofs BitProofs MulProofs MulIntProofs DivProofs RootProofs.
Open Scope Z_scope.

Lemma pow_ge_base a b : 1 <= a -> 1 <= b -> a <= a ^ b.
Proof.
  intros. replace b with (1 + (b - 1)) by lia. rewrite Z.pow_add_r by lia. rewrite Z.pow_1_r.
  assert (0 < a ^ (b - 1)) by (apply Z.pow_pos_nonneg; lia). nia.
Qed.

Lemma pow_even a b : 0 <= b -> b mod 2 = 0 -> a ^ b = (a * a) ^ (b / 2).
Proof.
  intros Hb Hm. rewrite <- Z.pow_2_r, <- Z.pow_mul_r by (try apply Z.div_pos; lia). f_equal. zlia.
Qed.
Lemma pow_odd a b : 1 <= b -> a ^ b = a * a ^ (b - 1).
Proof. intros. replace b with (1 + (b - 1)) at 1 by lia. rewrite Z.pow_add_r by lia. rewrite Z.pow_1_r. reflexivity. Qed.

(** 2^127 is no proper power, except of 2 *)
Lemma root_2_127 a b : 0 <= a -> 2 <= b <= 127 -> a ^ b = h128 -> a = 2 /\ b = 127.
Proof.
  intros Ha Hb H.
  assert (Hd : (a | 2 ^ 127)).
  { change (2 ^ 127) with h128. rewrite <- H. rewrite pow_odd by lia. exists (a ^ (b - 1)). ring. }
  destruct (Zdivide_power_2 a 2 127 ltac:(lia) Ha prime_2 Hd) as (m & Em).
  assert (Hm : 0 <= m). { destruct (Z.lt_ge_cases m 0); [|lia]. rewrite Z.pow_neg_r in Em by lia. subst a. rewrite Z.pow_0_l in H by lia. lia. }
  subst a. rewrite <- Z.pow_mul_r in H by lia. change h128 with (2 ^ 127) in H.
  apply Z.pow_inj_r in H; [|lia|nia|lia].
  assert (F : forallb (fun k => negb (127 mod (Z.of_nat k) =? 0)) (seq 2 125) = true) by (vm_compute; reflexivity).
  destruct (Z.eq_dec b 127) as [->|].
  - split; [|auto]. replace m with 1 by nia. reflexivity.
  - rewrite forallb_forall in F. specialize (F (Z.to_nat b)). rewrite in_seq in F.
    specialize (F ltac:(lia)). rewrite Z2Nat.id in F by lia. rewrite <- H, Z.mod_mul in F by lia. discriminate.
Qed.

Section Pow.
Context {HS : Type} (E : env HS) (HE : has_std E).
Implicit Types (st : store HS) (R : result HS -> Prop).
Ltac wfin := unfold qcall, qblock, qfunc; wcbn.

Lemma lxor1 b : b mod 2 = 1 -> Z.lxor b 1 = b - 1.
Proof.
  intros. replace b with ((b / 2) * 2 ^ 1 + 1) at 1 by (change (2 ^ 1) with 2; zlia).
  rewrite <- (lxor_add 1 (b / 2) 1) by (cbn; lia). rewrite Z.lxor_assoc. cbn [Z.lxor]. rewrite Z.lxor_0_r.
  change (2 ^ 1) with 2. zlia.
Qed.

Lemma pow_inner_wp al ah b st R :
  lim al -> lim ah -> 1 <= val128 al ah -> 2 <= b < 4294967296 ->
  R (if val128 al ah ^ b <? m128 then RVals (u128 (val128 al ah ^ b)) st else err 0 st) ->
  wpf E "pow-inner" [VI64 al; VI64 ah; VI32 b] st R.
Proof.
  intros H1 H2 HA Hb H. set (P := val128 al ah ^ b) in *.
  wenter HE. wpure.
  apply (wp_loop0 E (fun z s => exists al ah cl ch,
     2 <= z < 4294967296 /\ lim al /\ lim ah /\ lim cl /\ lim ch /\ 1 <= val128 al ah /\ 1 <= val128 cl ch /\
     s = mkcfg [VI64 al; VI64 ah; VI32 z; VI64 cl; VI64 ch] [] st /\
     val128 al ah ^ z * val128 cl ch = P)) with (z := b); [lia| |].
  { exists al, ah, 1, 0. unfold lim in *. repeat (split; [first [assumption|lia|reflexivity]|]).
    subst P. lia. }
  clearbody P. clear al ah H1 H2 HA.
  intros z ls st1 Hz (al & ah & cl & ch & Hz2 & L1 & L2 & L3 & L4 & HA & HC & Es & HI). injection Es as -> ->.
  set (a := val128 al ah) in *. set (c := val128 cl ch) in *.
  assert (Pa : 0 < a ^ z) by (apply Z.pow_pos_nonneg; lia).
  wpure. rewrite land1. replace ((z mod 2) =? 0) with (Z.even z) by (rewrite Zmod_even; destruct (Z.even z); reflexivity).
  match goal with |- wp _ _ _ ?Q => set (QQ := Q) end.
  assert (TAIL : forall z' al' ah' cl' ch', 1 <= z' < z -> lim al' -> lim ah' -> lim cl' -> lim ch' ->
     1 <= val128 al' ah' -> 1 <= val128 cl' ch' -> val128 al' ah' ^ z' * val128 cl' ch' = P ->
     wp E [LGet 2; Const (VI32 1); R32 GtU; BrIf 0]
       (mkcfg [VI64 al'; VI64 ah'; VI32 z'; VI64 cl'; VI64 ch'] [] st) QQ).
  { intros z' al' ah' cl' ch' Hz' K1 K2 K3 K4 K5 K6 K7. wpure. wbrif Hb2; subst QQ.
    - wnil. unfold qloop; wcbn. wpure. wcall HE. apply mul_uint_wp; auto. wfin.
      assert (z' = 1) by lia. subst z'. rewrite Z.pow_1_r in K7. rewrite K7.
      destruct (P <? m128); [|exact H]. wcbn. unfold u128 in *. wcbn. wnil. exact H.
    - unfold qloop; wcbn. exists z'. split; [lia|]. exists al', ah', cl', ch'.
      repeat (split; [first [assumption|lia|reflexivity]|]). exact K7. }
  wif He.
  - wpure. wcall HE. apply mul_uint_wp; auto. fold a.
    assert (Pz : a * a <= P).
    { rewrite <- HI. rewrite pow_even in Pa |- * by (rewrite ?Zmod_even, ?He; lia).
      pose proof (pow_ge_base (a * a) (z / 2) ltac:(nia) ltac:(zlia)). nia. }
    assert (Aa : 0 < a * a) by nia.
    wfin. destruct (Z.ltb_spec (a * a) m128).
    2:{ unfold err. wcbn. subst QQ. unfold qloop; wcbn.
        destruct (Z.ltb_spec P m128); [lia|]. exact H. }
    rewrite <- (u128_limbs (a * a mod m64) (a * a / m64)) || idtac.
    unfold u128; rewrite pow64; wcbn. wpure. wnil.
    assert (V : val128 (a * a mod m64) (a * a / m64) = a * a) by zlia.
    apply TAIL; auto; rewrite ?V; try (unfold lim; zlia); try nia.
    rewrite <- HI, (pow_even a z) by (rewrite ?Zmod_even, ?He; lia). reflexivity.
  - assert (Ho : z mod 2 = 1) by (rewrite Zmod_even, He; reflexivity).
    wpure. rewrite lxor1 by exact Ho. wcall HE. apply mul_uint_wp; auto. fold a c.
    rewrite pow_odd in HI by lia.
    assert (Pa' : 0 < a ^ (z - 1)) by (apply Z.pow_pos_nonneg; lia).
    assert (Pz : a * c <= P) by (rewrite <- HI; nia).
    assert (Aa : 0 < a * c) by nia.
    wfin. destruct (Z.ltb_spec (a * c) m128).
    2:{ unfold err. wcbn. subst QQ. unfold qloop; wcbn.
        destruct (Z.ltb_spec P m128); [lia|]. exact H. }
    unfold u128; rewrite pow64; wcbn. wpure. wnil.
    assert (V : val128 (a * c mod m64) (a * c / m64) = a * c) by zlia.
    apply TAIL; auto; rewrite ?V; try (unfold lim; zlia); try nia.
    fold a. rewrite <- HI. ring.
Qed.

Lemma pow2_limbs b : 0 <= b <= 127 ->
  u128 (2 ^ b) = [VI64 (if b <? 64 then (2 ^ (b mod 64)) mod m64 else 0);
                  VI64 (if b <? 64 then 0 else (2 ^ ((b - 64) mod 64)) mod m64)].
Proof.
  intros Hb. unfold u128. rewrite pow64. destruct (Z.ltb_spec b 64).
  - rewrite (Z.mod_small b) by lia. f_equal. f_equal. f_equal. apply Z.div_small.
    split; [apply Z.pow_nonneg; lia|]. rewrite <- pow64. apply Z.pow_lt_mono_r; lia.
  - rewrite (Z.mod_small (b - 64)) by lia.
    assert (E1 : 2 ^ b = 2 ^ (b - 64) * m64) by (rewrite <- pow64, <- Z.pow_add_r by lia; f_equal; lia).
    rewrite E1. rewrite Z.mod_mul, Z.div_mul by lia. f_equal. f_equal. f_equal. symmetry. apply Z.mod_small.
    split; [apply Z.pow_nonneg; lia|]. rewrite <- pow64. apply Z.pow_lt_mono_r; lia.
Qed.

Lemma pow_big a b : 2 <= a -> 127 < b -> m128 <= a ^ b.
Proof.
  intros. apply Z.le_trans with (2 ^ 128); [rewrite pow128; lia|].
  apply Z.le_trans with (2 ^ b); [apply Z.pow_le_mono_r; lia|]. apply Z.pow_le_mono_l; lia.
Qed.

Lemma b2z_or a b : Z.lor (b2z a) (b2z b) = b2z (a || b).
Proof. destruct a, b; reflexivity. Qed.
Lemma b2z_and a b : Z.land (b2z a) (b2z b) = b2z (a && b).
Proof. destruct a, b; reflexivity. Qed.

Lemma pow_uint_wp al ah bl bh st R :
  lim al -> lim ah -> lim bl -> lim bh ->
  let a := val128 al ah in let b := val128 bl bh in
  R (if a ^ b <? m128 then RVals (u128 (a ^ b)) st else err (if 127 <? b then 8 else 0) st) ->
  wpf E "stdlib.pow-uint" [VI64 al; VI64 ah; VI64 bl; VI64 bh] st R.
Proof.
  intros H1 H2 H3 H4 a b H.
  assert (Ha : 0 <= a < m128) by (unfold lim in *; lia).
  assert (Hb : 0 <= b < m128) by (unfold lim in *; lia).
  wenter HE. wpure. rewrite lor_eqb0. wif Hc.
  { wpure. wret. assert (E0 : b = 0) by (subst b; lia). rewrite E0 in H. exact H. }
  assert (Hb0 : 1 <= b) by (subst b; unfold lim in *; lia).
  wnil. wpure. rewrite lor_eqb0, lxor_eqb0, b2z_and, b2z_or. wif Hd.
  { wpure. wret. assert (E1 : a ^ b = a).
    { assert (a = 0 \/ a = 1 \/ b = 1) as [->| [->| ->]] by (subst a b; lia).
      - apply Z.pow_0_l. lia.
      - apply Z.pow_1_l. lia.
      - apply Z.pow_1_r. }
    rewrite E1 in H. destruct (Z.ltb_spec a m128); [|lia]. subst a. rewrite u128_limbs in H by auto. exact H. }
  assert (Ha2 : 2 <= a) by (subst a; unfold lim in *; lia).
  assert (Hb2 : 2 <= b) by (subst b; unfold lim in *; lia).
  wnil. wpure. rewrite b2z_or. wif He.
  { wpure. wcall HE. apply runtime_error_wp; auto. wfin.
    assert (127 < b) by (subst b; unfold lim in *; lia).
    pose proof (pow_big a b Ha2 ltac:(lia)).
    destruct (Z.ltb_spec (a ^ b) m128); [lia|]. destruct (Z.ltb_spec 127 b); [|lia]. exact H. }
  assert (Hb3 : b <= 127) by (subst b; unfold lim in *; lia).
  assert (Ebl : bl = b) by (subst b; unfold lim in *; lia).
  destruct (Z.ltb_spec 127 b); [lia|].
  wnil. wpure. rewrite lor_eqb0, lxor_eqb0. wif Hf.
  { wpure. wret. rewrite !b2z_eq0, !Z.mul_1_l.
    assert (Ea : a = 2) by (subst a; lia). rewrite Ea in H.
    pose proof (pow2_limbs b ltac:(lia)) as PL.
    destruct (Z.ltb_spec (2 ^ b) m128).
    2:{ assert (2 ^ b < 2 ^ 128) by (apply Z.pow_lt_mono_r; lia). rewrite pow128 in *. lia. }
    rewrite PL in H. rewrite Ebl. rconv H.
    - destruct (b <? 64); reflexivity.
    - destruct (Z.ltb_spec b 64); [reflexivity|]. cbn [negb]. rewrite (Z.mod_small (b - 64) m64) by lia. reflexivity. }
  wnil. wpure. rewrite (Z.mod_small bl) by lia. wcall HE. apply pow_inner_wp; auto; try (fold a; lia).
  fold a. rewrite Ebl. wfin. rsplit H; [|exact H]. unfold u128 in *; wcbn. wnil. exact H.
Qed.

Definition pow_int_ok (a b : Z) : bool :=
  (0 <=? b) && (- h128 <=? a ^ b) && (a ^ b <? h128) && ((0 <=? a) || (a <? -1) || (b <=? 127)).

Lemma pow_abs a b : 0 <= b -> Z.abs (a ^ b) = Z.abs a ^ b.
Proof. intros. apply Z.abs_pow. Qed.

Lemma pow_neg_sign a b : a < 0 -> 0 <= b -> a ^ b = if b mod 2 =? 1 then - (Z.abs a ^ b) else Z.abs a ^ b.
Proof.
  intros Ha Hb. replace a with (- Z.abs a) at 1 by lia.
  destruct (Z.eqb_spec (b mod 2) 1) as [e|n].
  - apply Z.pow_opp_odd. exists (b / 2). zlia.
  - apply Z.pow_opp_even. exists (b / 2). zlia.
Qed.

Lemma neg_limbs_i128 l h : lim l -> lim h -> 
  [VI64 (neg_lo l); VI64 (neg_hi l h)] = i128 (- val128 l h).
Proof.
  intros. unfold i128. rewrite pow128, <- neg_limbs by auto. symmetry. apply u128_limbs. apply neg_lo_lim.
Qed.

Lemma pow_int_wp al ah bl bh st R :
  lim al -> lim ah -> lim bl -> lim bh ->
  let a := sval128 al ah in let b := sval128 bl bh in
  R (if (b =? 0) then RVals (i128 1) st
     else if (a =? 0) || (a =? 1) || (b =? 1) then RVals (i128 a) st
     else if (b <? 0) || (127 <? b) || ((126 <? b) && (0 <=? a)) then err 8 st
     else if (- h128 <=? a ^ b) && (a ^ b <? h128) then RVals (i128 (a ^ b)) st
     else err 0 st) ->
  wpf E "stdlib.pow-int" [VI64 al; VI64 ah; VI64 bl; VI64 bh] st R.
Proof.
  intros H1 H2 H3 H4 a b H.
  pose proof (sval_range al ah H1 H2) as RA. pose proof (sval_range bl bh H3 H4) as RB. fold a in RA. fold b in RB.
  assert (Ia : i128 a = [VI64 al; VI64 ah]) by (subst a; apply i128_limbs; auto).
  assert (Va := sval_alt al ah H1 H2). fold a in Va.
  assert (Vb := sval_alt bl bh H3 H4). fold b in Vb.
  assert (Sa := sval_sign al ah H1 H2). fold a in Sa.
  assert (Sb := sval_sign bl bh H3 H4). fold b in Sb.
  assert (Ab := abs_limbs al ah H1 H2). fold a in Ab.
  clearbody a b.
  wenter HE. wpure. rewrite lor_eqb0.
  replace ((bl =? 0) && (bh =? 0)) with (b =? 0)
    by (clear - Vb H3 H4; unfold lim in *; destruct (Z.leb_spec h64 bh); lia).
  wif Hc.
  { wpure. wret. rewrite Hc in H. exact H. }
  rewrite Hc in H.
  wnil. wpure. rewrite lor_eqb0, lxor_eqb0, b2z_and, b2z_or.
  replace (((al <? 2) && (ah =? 0)) || ((bl =? 1) && (bh =? 0))) with ((a =? 0) || (a =? 1) || (b =? 1))
    by (clear - Va Vb H1 H2 H3 H4; unfold lim in *; destruct (Z.leb_spec h64 bh), (Z.leb_spec h64 ah); lia).
  wif Hd.
  { wpure. wret. rewrite Hd, Ia in H. exact H. }
  rewrite Hd in H. wnil. wpure. rewrite sgn64_lt0, Sb by auto. wif He.
  { wpure. wcall HE. apply runtime_error_wp; auto. wfin. rewrite He in H. exact H. }
  rewrite He in H. cbn [orb] in H. wnil. wpure. rewrite sgn64_lt0, Sa by auto. rewrite b2z_or.
  rewrite (Z.mod_small (126 + b2z (a <? 0))) by (destruct (a <? 0); unfold b2z; lia).
  replace ((126 + b2z (a <? 0) <? bl) || negb (bh =? 0)) with ((127 <? b) || ((126 <? b) && (0 <=? a))).
  2:{ clear - Vb H3 H4 Sb He. unfold lim in *. rewrite He in Sb. rewrite Sb in Vb.
      unfold b2z. destruct (Z.ltb_spec a 0); lia. }
  wif Hf.
  { wpure. wcall HE. apply runtime_error_wp; auto. wfin. rewrite Hf in H. exact H. }
  rewrite Hf in H.
  assert (Hb2 : 2 <= b <= 127) by lia.
  assert (Ebl : bl = b) by (clear - Vb H3 H4 Sb He Hb2; unfold lim in *; rewrite He in Sb; rewrite Sb in Vb; lia).
  assert (Ebh : bh = 0) by (clear - Vb H3 H4 Sb He Hb2; unfold lim in *; rewrite He in Sb; rewrite Sb in Vb; lia).
  clear Vb Sb RB. subst bl bh.
  wnil. wpure. rewrite lor_eqb0, lxor_eqb0.
  replace ((al =? 2) && (ah =? 0)) with (a =? 2)
    by (clear - Va H1 H2; unfold lim in *; destruct (Z.leb_spec h64 ah); lia).
  wif Hg.
  { wpure. wret. rewrite !b2z_eq0, !Z.mul_1_l. assert (Ea : a = 2) by lia. rewrite Ea in H.
    pose proof (pow2_limbs b ltac:(lia)) as PL.
    assert (P2 : 0 < 2 ^ b < h128).
    { split; [apply Z.pow_pos_nonneg; lia|]. change h128 with (2 ^ 127). apply Z.pow_lt_mono_r; lia. }
    assert (T1 : (- h128 <=? 2 ^ b) && (2 ^ b <? h128) = true) by lia. rewrite T1 in H.
    unfold i128 in H. rewrite pow128 in H. rewrite (Z.mod_small (2 ^ b)) in H by lia. rewrite PL in H.
    rconv H.
    - destruct (b <? 64); reflexivity.
    - destruct (Z.ltb_spec b 64); [reflexivity|]. cbn [negb]. rewrite (Z.mod_small (b - 64) m64) by lia. reflexivity. }
  wnil. wpure. rewrite b2z_and.
  replace ((al =? 18446744073709551614) && (ah =? 18446744073709551615)) with (a =? -2)
    by (clear - Va H1 H2; unfold lim in *; destruct (Z.leb_spec h64 ah); lia).
  wif Hh.
  { wpure. wret. assert (Ea : a = -2) by lia. rewrite Ea in H; clear Va Sa Ab Ia RA Ea.
    assert (P2 : 0 < 2 ^ b <= h128).
    { split; [apply Z.pow_pos_nonneg; lia|]. change h128 with (2 ^ 127). apply Z.pow_le_mono_r; lia. }
    pose proof (pow_neg_sign (-2) b ltac:(lia) ltac:(lia)) as PS. change (Z.abs (-2)) with 2 in PS.
    rewrite land1, b2z_eq0.
    destruct (Z.eqb_spec (b mod 2) 1) as [e|n].
    - rewrite e. change (1 mod 4294967296 =? 0) with false. cbn [negb].
      rewrite PS in H.
      assert (T1 : (- h128 <=? - 2 ^ b) && (- 2 ^ b <? h128) = true) by lia. rewrite T1 in H.
      unfold i128, u128 in H. rewrite ?pow128, ?pow64 in H. rconv H.
      + rewrite ?pow64, ?pow128. destruct (Z.ltb_spec b 64); cbn [negb].
        * rewrite (Z.mod_small b 64) by lia. set (x := 2 ^ b) in *. clearbody x. clear - P2. zlia.
        * assert (E1 : 2 ^ b = 2 ^ (b - 64) * m64) by (rewrite <- pow64, <- Z.pow_add_r by lia; f_equal; lia).
          rewrite E1. set (x := 2 ^ (b - 64)) in *. clearbody x. clear. zlia.
      + rewrite ?pow64, ?pow128. destruct (Z.ltb_spec b 64); cbn [negb].
        * assert (Hxm : 2 ^ b < m64) by (rewrite <- pow64; apply Z.pow_lt_mono_r; lia).
          set (x := 2 ^ b) in *. clearbody x. clear - P2 Hxm. zlia.
        * rewrite (Z.mod_small (b - 64) m64), (Z.mod_small (b - 64) 64) by lia.
          assert (E1 : 2 ^ b = 2 ^ (b - 64) * m64) by (rewrite <- pow64, <- Z.pow_add_r by lia; f_equal; lia).
          rewrite E1 in *. set (x := 2 ^ (b - 64)) in *. clearbody x. clear - P2. zlia.
    - assert (e0 : b mod 2 = 0) by (clear - n; zlia).
      rewrite e0. change (0 mod 4294967296 =? 0) with true. cbn [negb].
      rewrite PS in H.
      assert (P3 : 2 ^ b < h128).
      { change h128 with (2 ^ 127). apply Z.pow_lt_mono_r; try lia. destruct (Z.eq_dec b 127); [subst; discriminate|lia]. }
      assert (T1 : (- h128 <=? 2 ^ b) && (2 ^ b <? h128) = true) by lia. rewrite T1 in H.
      unfold i128 in H. rewrite pow128 in H. rewrite (Z.mod_small (2 ^ b)) in H by lia.
      rewrite pow2_limbs in H by lia. rewrite !Z.mul_1_l. rconv H.
      + destruct (b <? 64); reflexivity.
      + destruct (Z.ltb_spec b 64); [reflexivity|]. cbn [negb]. rewrite (Z.mod_small (b - 64) m64) by lia. reflexivity. }
  wnil. wpure. rewrite !b2z_eq0, sgn64_lt0, Sa, land1 by auto. rewrite (Z.mod_small b 4294967296) by lia.
  fold (neg_lo al) (neg_hi al ah). rewrite Sa in Ab.
  assert (SW : forall (c : bool) (x y : Z), (if negb c then x else y) = (if c then y else x)) by (intros []; auto).
  rewrite !SW.
  wcall HE. apply pow_inner_wp; auto; try lia.
  { destruct (a <? 0); auto using neg_lo_lim. }
  { destruct (a <? 0); auto using neg_hi_lim. }
  rewrite Ab. set (P := Z.abs a ^ b) in *.
  assert (HP0 : 0 < P) by (subst P; apply Z.pow_pos_nonneg; lia).
  assert (HPn : P <> h128).
  { intros e. apply root_2_127 in e; [|lia|lia]. lia. }
  assert (HPa : a ^ b = if (a <? 0) && (b mod 2 =? 1) then - P else P).
  { destruct (Z.ltb_spec a 0); [apply pow_neg_sign; lia|]. cbn. subst P. f_equal. lia. }
  assert (Hok : (- h128 <=? a ^ b) && (a ^ b <? h128) = (P <? h128)).
  { rewrite HPa. clear - HP0 HPn. destruct ((a <? 0) && (b mod 2 =? 1)); lia. }
  rewrite Hok, HPa in H. clearbody P. clear Hok HPa.
  wfin. destruct (Z.ltb_spec P m128).
  2:{ unfold err. wcbn. destruct (Z.ltb_spec P h128); [lia|]. exact H. }
  unfold u128. rewrite pow64. wcbn. wpure.
  assert (L1 : lim (P mod m64)) by (unfold lim; clear; zlia).
  assert (L2 : lim (P / m64)) by (unfold lim; clear - HP0 H0; zlia).
  assert (VP : val128 (P mod m64) (P / m64) = P) by (clear; zlia).
  rewrite sgn64_lt0 by auto. wif Hi.
  { wpure. wcall HE. apply runtime_error_wp; auto. wfin.
    destruct (Z.ltb_spec P h128); [clear - Hi H5; zlia|]. exact H. }
  destruct (Z.ltb_spec P h128); [|clear - Hi H5; zlia].
  wnil. wpure.
  replace (Z.land (b2z (a <? 0)) (b mod 2)) with (b2z ((a <? 0) && (b mod 2 =? 1))).
  2:{ assert (b mod 2 = 0 \/ b mod 2 = 1) as [-> | ->] by (clear; zlia); destruct (a <? 0); reflexivity. }
  wif Hj.
  - wpure. wnil. wnil. fold (neg_lo (P mod m64)). fold (neg_hi (P mod m64) (P / m64)).
    rewrite Hj in H. rewrite <- VP, <- neg_limbs_i128 in H by auto. exact H.
  - wpure. wnil. wnil. rewrite Hj in H. unfold i128 in H. rewrite pow128, Z.mod_small in H by lia.
    unfold u128 in H. rewrite pow64 in H. exact H.
Qed.
End Pow.
