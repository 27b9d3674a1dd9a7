(** * Proofs about division and remainder. *)
From Coq Require Import ZArith String List Bool Lia.
Import ListNotations.
From Verif Require Import Wasm Std StdEnv WasmLogic WasmTac Spec ZBits ArithProofs BitProofs MulProofs MulIntProofs.
Open Scope Z_scope.

Lemma lor_pow x c w : 0 <= c < w -> x mod 2 ^ (c + 1) = 0 -> 0 <= x < 2 ^ w ->
  Z.lor x (2 ^ c) = x + 2 ^ c /\ x + 2 ^ c < 2 ^ w.
Proof.
  intros Hc Hx Hw. assert (0 < 2 ^ (c + 1)) by (apply Z.pow_pos_nonneg; lia).
  assert (E1 : x = x / 2 ^ (c + 1) * 2 ^ (c + 1)) by (pose proof (Z.div_mod x (2 ^ (c + 1))); lia).
  assert (P : 0 < 2 ^ c) by (apply Z.pow_pos_nonneg; lia).
  assert (P2 : 2 ^ (c + 1) = 2 * 2 ^ c) by (rewrite Z.pow_add_r by lia; lia).
  split.
  - rewrite E1 at 1. rewrite lor_add by lia. lia.
  - assert (W : 2 ^ w = 2 ^ (w - (c + 1)) * 2 ^ (c + 1)) by (rewrite <- Z.pow_add_r by lia; f_equal; lia).
    rewrite W in *. set (q := x / 2 ^ (c + 1)) in *. set (S := 2 ^ (w - (c + 1))) in *.
    assert (q < S) by nia. nia.
Qed.

(** state of the long division with [k] bits still to process *)
Definition div_inv (D d k dl dh qh ql rh rl : Z) : Prop :=
  lim dl /\ lim dh /\ lim qh /\ lim ql /\ lim rh /\ lim rl /\ 0 <= k <= 128 /\
  exists P Q Y,
    val128 dl dh = Y * 2 ^ (128 - k) /\ 0 <= Y < 2 ^ k /\ D = P * 2 ^ k + Y /\ 0 <= P /\ 0 <= Q /\
    P = Q * d + val128 rl rh /\ val128 rl rh < d /\ val128 ql qh = Q * 2 ^ k.

Lemma div_step D d c dl dh qh ql rh rl :
  0 <= D < m128 -> 0 <= c <= 127 ->
  div_inv D d (c + 1) dl dh qh ql rh rl ->
  let t := dh / 9223372036854775808 in
  let rl' := (rl * 2) mod m64 + t in
  let rh' := (rh * 2) mod m64 + rl / 9223372036854775808 in
  let dl' := (dl * 2) mod m64 in
  let dh' := (dh * 2) mod m64 + dl / 9223372036854775808 in
  lim rl' /\ lim rh' /\
  (if val128 rl' rh' >=? d then
     forall r2l r2h q2l q2h, lim r2l -> lim r2h -> val128 r2l r2h = val128 rl' rh' - d ->
       lim q2l -> lim q2h -> val128 q2l q2h = val128 ql qh + 2 ^ c ->
       div_inv D d c dl' dh' q2h q2l r2h r2l
   else div_inv D d c dl' dh' qh ql rh' rl').
Proof.
  intros HD Hc (L1 & L2 & L3 & L4 & L5 & L6 & Hk & P & Q & Y & E1 & HY & E2 & HP & HQ & E3 & Hlt & E4) t rl' rh' dl' dh'.
  assert (PT : 2 ^ (c + 1) = 2 * 2 ^ c) by (rewrite Z.pow_add_r by lia; lia).
  assert (PU : 2 ^ (128 - c) = 2 * 2 ^ (127 - c)) by (replace (128 - c) with (1 + (127 - c)) by lia; rewrite Z.pow_add_r by lia; lia).
  assert (TU : 2 ^ c * 2 ^ (127 - c) = h128) by (rewrite <- Z.pow_add_r by lia; replace (c + (127 - c)) with 127 by lia; reflexivity).
  replace (128 - (c + 1)) with (127 - c) in E1 by lia.
  assert (T0 : 0 < 2 ^ c) by (apply Z.pow_pos_nonneg; lia).
  assert (U0 : 0 < 2 ^ (127 - c)) by (apply Z.pow_pos_nonneg; lia).
  rewrite PT in *. set (T := 2 ^ c) in *. set (U := 2 ^ (127 - c)) in *.
  assert (HPm : P < h128). { nia. }
  assert (Hr : val128 rl rh < h128) by nia.
  assert (Ht : t = val128 dl dh / h128).
  { subst t. unfold lim in *. clear - L1 L2. zlia. }
  assert (Ht2 : t = 0 /\ Y < T \/ t = 1 /\ T <= Y).
  { rewrite E1 in Ht. rewrite <- TU in Ht.
    destruct (Z.lt_ge_cases Y T).
    - left; split; auto. rewrite Ht. apply Z.div_small. nia.
    - right; split; auto. rewrite Ht. symmetry. apply Z.div_unique with (r := (Y - T) * U); [left; nia|ring]. }
  assert (R1 : lim rl') by (subst rl'; unfold lim in *; zlia).
  assert (R2 : lim rh') by (subst rh'; unfold lim in *; clear - L5 L6 Hr; zlia).
  assert (Rv : val128 rl' rh' = 2 * val128 rl rh + t).
  { subst rl' rh'. unfold lim in *. clear - L5 L6 Hr. zlia. }
  assert (D1 : lim dl') by (subst dl'; unfold lim in *; zlia).
  assert (D2 : lim dh') by (subst dh'; unfold lim in *; clear - L1 L2; zlia).
  assert (Dv : val128 dl' dh' = 2 * val128 dl dh - t * m128).
  { subst dl' dh' t. unfold lim in *. clear - L1 L2. zlia. }
  split; [auto|split;[auto|]].
  clearbody t rl' rh' dl' dh'. clear Ht.
  rewrite Z.geb_leb. destruct (Z.leb_spec d (val128 rl' rh')) as [G|G].
  - intros r2l r2h q2l q2h A1 A2 A3 A4 A5 A6.
    repeat (split; [first [assumption|lia]|]).
    exists (2 * P + t), (2 * Q + 1), (Y - t * T). rewrite PU. fold T U.
    repeat split; try nia.
  - repeat (split; [first [assumption|lia]|]).
    exists (2 * P + t), (2 * Q), (Y - t * T). rewrite PU. fold T U.
    repeat split; try nia.
Qed.

Section Div.
Context {HS : Type} (E : env HS) (HE : has_std E).
Implicit Types (st : store HS) (R : result HS -> Prop).
Ltac wfin := unfold qcall, qblock, qfunc; wcbn.

Lemma div_int128_wp al ah bl bh st R :
  lim al -> lim ah -> lim bl -> lim bh ->
  R (if val128 bl bh =? 0 then err 2 st else
       RVals (u128 (val128 al ah / val128 bl bh) ++ u128 (val128 al ah mod val128 bl bh)) st) ->
  wpf E "stdlib.div-int128" [VI64 al; VI64 ah; VI64 bl; VI64 bh] st R.
Proof.
  intros H1 H2 H3 H4 H. wenter HE. wpure. rewrite lor_eqb0. wif Hc.
  { wpure. wcall HE. apply runtime_error_wp; auto. wfin.
    destruct (Z.eqb_spec (val128 bl bh) 0); [exact H|]. lia. }
  destruct (Z.eqb_spec (val128 bl bh) 0); [unfold lim in *; lia|].
  wnil. wpure.
  set (D := val128 al ah) in *. set (d := val128 bl bh) in *.
  assert (HD : 0 <= D < m128) by (unfold lim in *; lia).
  assert (Hd : 0 < d < m128) by (unfold lim in *; lia).
  apply (wp_loop0 E (fun z s => exists dl dh qh ql rh rl, 0 <= z <= 127 /\
     s = mkcfg [VI64 dl; VI64 dh; VI64 bl; VI64 bh; VI64 qh; VI64 ql; VI64 rh; VI64 rl; VI64 z] [] st /\
     div_inv D d (z + 1) dl dh qh ql rh rl)) with (z := 127); [lia| |].
  { exists al, ah, 0, 0, 0, 0. split; [lia|split;[reflexivity|]].
    unfold div_inv. repeat (split; [first [assumption|unfold lim; lia]|]).
    exists 0, 0, D. change (2 ^ (128 - (127 + 1))) with 1. change (2 ^ (127 + 1)) with m128. fold D.
    repeat split; lia. }
  intros z ls st1 Hz (dl & dh & qh & ql & rh & rl & Hz2 & Es & HI). injection Es as -> ->.
  pose proof (div_step D d z dl dh qh ql rh rl HD Hz2 HI) as HS1. cbv zeta in HS1.
  assert (HL := HI). destruct HL as (L1 & L2 & L3 & L4 & L5 & L6 & _ & P & Q & Y & _ & _ & _ & HP0 & HQ0 & _ & _ & EQ).
  wpure.
  rewrite !lor1 by (auto; unfold lim in *; clear - L1 L2 L5 L6; zlia).
  set (rl' := (rl * 2) mod m64 + dh / 9223372036854775808) in *.
  set (rh' := (rh * 2) mod m64 + rl / 9223372036854775808) in *.
  set (dl' := (dl * 2) mod m64) in *.
  set (dh' := (dh * 2) mod m64 + dl / 9223372036854775808) in *.
  destruct HS1 as (R1 & R2 & HS1). clearbody rl' rh' dl' dh'.
  assert (Hb : Z.lor (b2z (bh <? rh')) (Z.land (b2z (rh' =? bh)) (b2z (bl <=? rl'))) = b2z (val128 rl' rh' >=? d)).
  { subst d. rewrite Z.geb_leb. unfold lim in *. clear - R1 R2 H3 H4.
    destruct (Z.ltb_spec bh rh'), (Z.eqb_spec rh' bh), (Z.leb_spec bl rl'),
      (Z.leb_spec (val128 bl bh) (val128 rl' rh')); try lia; reflexivity. }
  rewrite Hb.
  match goal with |- wp _ _ _ ?Q => set (QQ := Q) end.
  (* the end of an iteration, for any updated state *)
  assert (TAIL : forall q2h q2l r2h r2l, div_inv D d z dl' dh' q2h q2l r2h r2l ->
    wp E [LGet 8; Const (VI64 1); B64 Sub; LSet 8; LGet 8; Const (VI64 0); R64 GeS; BrIf 0]
     (mkcfg [VI64 dl'; VI64 dh'; VI64 bl; VI64 bh; VI64 q2h; VI64 q2l; VI64 r2h; VI64 r2l; VI64 z] [] st) QQ).
  { intros q2h q2l r2h r2l HJ. wpure.
    replace (sgn64 0 <=? sgn64 ((z - 1) mod 18446744073709551616)) with (1 <=? z).
    2:{ clear - Hz2. assert (z = 0 \/ 1 <= z) as [->|Hz1] by lia; [reflexivity|].
        rewrite Z.mod_small by lia. unfold sgn64. change (0 <? h64) with true. cbv iota.
        destruct (Z.ltb_spec (z - 1) h64); lia. }
    wbrif Hb2; [|subst QQ; wfin; exists (z - 1); split; [lia|]; exists dl', dh', q2h, q2l, r2h, r2l;
      rewrite Z.mod_small by lia; split; [lia|]; split; [reflexivity|];
      replace (z - 1 + 1) with z by lia; exact HJ].
    { subst QQ. wnil. unfold qloop; wcbn. wpure. wret.
      destruct HJ as (L1' & L2' & L3' & L4' & L5' & L6' & _ & P' & Q' & Y' & _ & HY' & E2' & HP' & HQ' & E3' & Hlt' & E4').
      assert (z = 0) by lia. subst z. change (2 ^ 0) with 1 in *.
      assert (Hq : Q' = D / d) by (apply Z.div_unique with (r := val128 r2l r2h); [left; unfold lim in *; lia|lia]).
      assert (Hm : val128 r2l r2h = D mod d) by (apply Z.mod_unique with (q := Q'); [left; unfold lim in *; lia|lia]).
      rewrite <- Hq, <- Hm in H. replace Q' with (val128 q2l q2h) in H by lia.
      rewrite !u128_limbs in H by auto. exact H. } }
  clearbody QQ.
  destruct (val128 rl' rh' >=? d) eqn:Hge; wif Hx; try discriminate; [|wnil; apply TAIL; exact HS1].
  wpure. wcall HE. apply sub_int128_wp; auto. wfin. wpure.
  assert (Sub : val128 ((rl' - bl) mod m64) ((rh' - bh + (rl' - bl) / m64) mod m64) = val128 rl' rh' - d).
  { subst d. rewrite Z.geb_leb in Hge. apply Z.leb_le in Hge. unfold lim in *. clear - R1 R2 H3 H4 Hge.
    set (x := rl' - bl) in *. assert (rl' = x + bl) by lia. clearbody x. subst rl'. zlia. }
  assert (Sl : lim ((rl' - bl) mod m64)) by (unfold lim; apply Z.mod_pos_bound; lia).
  assert (Sh : lim ((rh' - bh + (rl' - bl) / m64) mod m64)) by (unfold lim; apply Z.mod_pos_bound; lia).
  set (r2l := (rl' - bl) mod m64) in *. set (r2h := (rh' - bh + (rl' - bl) / m64) mod m64) in *. clearbody r2l r2h.
  assert (0 < 2 ^ (z + 1)) by (apply Z.pow_pos_nonneg; lia).
  wif Hz3.
  - wpure. rewrite (Z.mod_small z 64) by lia. rewrite Z.mul_1_l.
    assert (2 ^ z < m64) by (rewrite <- pow64; apply Z.pow_lt_mono_r; lia).
    assert (0 <= 2 ^ z) by (apply Z.pow_nonneg; lia).
    rewrite (Z.mod_small (2 ^ z)) by lia.
    assert (Hmod : ql mod 2 ^ (z + 1) = 0).
    { replace ql with ((Q - m64 / 2 ^ (z + 1) * qh) * 2 ^ (z + 1)); [apply Z.mod_mul; lia|].
      assert (E64 : m64 = 2 ^ (64 - (z + 1)) * 2 ^ (z + 1)) by (rewrite <- Z.pow_add_r by lia; rewrite <- pow64; f_equal; lia).
      rewrite E64 at 1. rewrite Z.div_mul by lia. rewrite Z.mul_sub_distr_r, <- EQ.
      rewrite E64. ring. }
    destruct (lor_pow ql z 64 ltac:(lia) Hmod ltac:(rewrite pow64; exact L4)) as [Eor Hlt].
    rewrite Eor. wnil. wnil. apply TAIL. apply HS1; auto; unfold lim in *; rewrite ?pow64 in *; lia.
  - wpure. rewrite (Z.mod_small (z - 64)) by lia. rewrite (Z.mod_small (z - 64) 64) by lia. rewrite Z.mul_1_l.
    set (c := z - 64) in *. assert (Hc2 : 0 <= c < 64) by lia.
    assert (2 ^ c < m64) by (rewrite <- pow64; apply Z.pow_lt_mono_r; lia).
    assert (0 <= 2 ^ c) by (apply Z.pow_nonneg; lia).
    rewrite (Z.mod_small (2 ^ c)) by lia.
    assert (E64 : 2 ^ (z + 1) = m64 * 2 ^ (c + 1)) by (rewrite <- pow64, <- Z.pow_add_r by lia; f_equal; lia).
    assert (E65 : 2 ^ z = m64 * 2 ^ c) by (rewrite <- pow64, <- Z.pow_add_r by lia; f_equal; lia).
    assert (Hqh : qh = Q * 2 ^ (c + 1)) by (rewrite E64 in EQ; unfold lim in *; nia).
    assert (0 < 2 ^ (c + 1)) by (apply Z.pow_pos_nonneg; lia).
    assert (Hmod : qh mod 2 ^ (c + 1) = 0) by (rewrite Hqh; apply Z.mod_mul; lia).
    destruct (lor_pow qh c 64 ltac:(lia) Hmod ltac:(rewrite pow64; exact L3)) as [Eor Hlt].
    rewrite Eor. wnil. wnil. apply TAIL. apply HS1; auto; unfold lim in *; rewrite ?pow64 in *; lia.
Qed.

Lemma div_uint_wp al ah bl bh st R :
  lim al -> lim ah -> lim bl -> lim bh ->
  R (if val128 bl bh =? 0 then err 2 st else RVals (u128 (val128 al ah / val128 bl bh)) st) ->
  wpf E "stdlib.div-uint" [VI64 al; VI64 ah; VI64 bl; VI64 bh] st R.
Proof.
  intros H1 H2 H3 H4 H. wenter HE. wpure. wcall HE. apply div_int128_wp; auto. wfin.
  destruct (val128 bl bh =? 0); [exact H|]. unfold u128. wcbn. wpure. wret. exact H.
Qed.

Lemma mod_uint_wp al ah bl bh st R :
  lim al -> lim ah -> lim bl -> lim bh ->
  R (if val128 bl bh =? 0 then err 2 st else RVals (u128 (val128 al ah mod val128 bl bh)) st) ->
  wpf E "stdlib.mod-uint" [VI64 al; VI64 ah; VI64 bl; VI64 bh] st R.
Proof.
  intros H1 H2 H3 H4 H. wenter HE. wpure. wcall HE. apply div_int128_wp; auto. wfin.
  destruct (val128 bl bh =? 0); [exact H|]. unfold u128. wcbn. wpure. wret. exact H.
Qed.

(** two's-complement negation as computed by [0 - x] *)
Lemma lim0 : lim 0. Proof. unfold lim; lia. Qed.
Definition nlo l := (0 - l) mod m64.
Definition nhi l h := (0 - h + (0 - l) / m64) mod m64.
Lemma nlo_lim l : lim (nlo l). Proof. apply Z.mod_pos_bound; lia. Qed.
Lemma nhi_lim l h : lim (nhi l h). Proof. apply Z.mod_pos_bound; lia. Qed.
Lemma nval l h : lim l -> lim h -> val128 (nlo l) (nhi l h) = (- val128 l h) mod m128.
Proof. unfold lim, nlo, nhi. intros. zlia. Qed.
Lemma nabs l h : lim l -> lim h ->
  val128 (if h64 <=? h then nlo l else l) (if h64 <=? h then nhi l h else h) = Z.abs (sval128 l h).
Proof.
  intros Hl Hh. rewrite sval_alt by auto. pose proof (nval l h Hl Hh) as N.
  unfold lim in *. destruct (Z.leb_spec h64 h); [rewrite N|]; zlia.
Qed.
Lemma sval_sign l h : lim l -> lim h -> (h64 <=? h) = (sval128 l h <? 0).
Proof. intros. rewrite sval_alt by auto. unfold lim in *. destruct (Z.leb_spec h64 h); lia. Qed.
Lemma sval_range l h : lim l -> lim h -> - h128 <= sval128 l h < h128.
Proof. intros. rewrite sval_alt by auto. unfold lim in *. destruct (Z.leb_spec h64 h); lia. Qed.

Lemma sar63' x : lim x -> (sgn64 x / 9223372036854775808) mod m64 = if h64 <=? x then m64 - 1 else 0.
Proof. intros. rewrite sar63 by auto. destruct (Z.ltb_spec x h64), (Z.leb_spec h64 x); try lia; auto. Qed.

(** the limbs of a signed result, from its absolute value *)
Lemma signed_result (b : bool) v :
  0 <= v < m128 ->
  (if b then [VI64 (nlo (v mod m64)); VI64 (nhi (v mod m64) (v / m64))]
   else [VI64 (v mod m64); VI64 (v / m64)])
  = i128 (if b then - v else v).
Proof.
  intros Hv. unfold i128. rewrite pow128. destruct b.
  - rewrite <- (u128_limbs (nlo _)) by apply nlo_lim. f_equal.
    rewrite nval by (unfold lim; zlia). f_equal. zlia.
  - rewrite (Z.mod_small v m128) by lia. unfold u128. rewrite pow64. reflexivity.
Qed.

Lemma quot_abs a b : b <> 0 -> Z.quot a b = (if xorb (a <? 0) (b <? 0) then - (Z.abs a / Z.abs b) else Z.abs a / Z.abs b).
Proof.
  intros Hb. rewrite Z.quot_div by auto.
  destruct (Z.eq_dec a 0) as [->|Ha].
  { change (Z.abs 0) with 0. rewrite Z.div_0_l by lia. destruct (xorb _ _); lia. }
  destruct (Z.ltb_spec a 0), (Z.ltb_spec b 0); cbn [xorb].
  - rewrite !Z.sgn_neg by lia. lia.
  - rewrite (Z.sgn_neg a), (Z.sgn_pos b) by lia. lia.
  - rewrite (Z.sgn_pos a), (Z.sgn_neg b) by lia. lia.
  - rewrite (Z.sgn_pos a), (Z.sgn_pos b) by lia. lia.
Qed.
Lemma rem_abs a b : b <> 0 -> Z.rem a b = (if a <? 0 then - (Z.abs a mod Z.abs b) else Z.abs a mod Z.abs b).
Proof.
  intros Hb. rewrite Z.rem_mod by auto.
  destruct (Z.ltb_spec a 0); [rewrite Z.sgn_neg by lia; lia|].
  destruct (Z.eq_dec a 0) as [->|]; [|rewrite (Z.sgn_pos a) by lia; lia]. cbn. destruct b; reflexivity.
Qed.

Ltac nif := first
  [ eapply wp_if with (b := true); [reflexivity|]; wcbn | eapply wp_if with (b:=false); [reflexivity|]; wcbn ].
Lemma wp_if_c np nr t e is ls c (b : bool) k st Q :
  c = (if b then 4294967295 else 0) ->
  wp E (if b then t else e) (mkcfg ls (firstn np k) st) (qblock E nr (skipn np k) is Q) ->
  wp E (If np nr t e :: is) (mkcfg ls (VI32 c :: k) st) Q.
Proof. intros -> H. apply wp_if_eqz; destruct b; intros; auto; lia. Qed.

Lemma wrap_all (b : bool) : (if b then m64 - 1 else 0) mod 4294967296 = if b then 4294967295 else 0.
Proof. destruct b; reflexivity. Qed.
Lemma xor_all (a b : bool) : Z.lxor (if a then m64 - 1 else 0) (if b then m64 - 1 else 0) = if xorb a b then m64 - 1 else 0.
Proof. destruct a, b; reflexivity. Qed.

Ltac negif b := eapply (wp_if_c _ _ _ _ _ _ _ b); [first [apply wrap_all|reflexivity]|]; wcbn.

Lemma div_int_wp al ah bl bh st R :
  lim al -> lim ah -> lim bl -> lim bh ->
  R (if sval128 bl bh =? 0 then err 2 st
     else if (sval128 al ah =? - h128) && (sval128 bl bh =? -1) then err 0 st
     else RVals (i128 (Z.quot (sval128 al ah) (sval128 bl bh))) st) ->
  wpf E "stdlib.div-int" [VI64 al; VI64 ah; VI64 bl; VI64 bh] st R.
Proof.
  intros H1 H2 H3 H4 H.
  set (A := sval128 al ah) in *. set (B := sval128 bl bh) in *.
  pose proof (sval_range al ah H1 H2) as RA. pose proof (sval_range bl bh H3 H4) as RB. fold A in RA. fold B in RB.
  wenter HE. wpure.
  assert (Hcond : Z.land (Z.land (b2z (al =? 0)) (b2z (ah =? 9223372036854775808)))
     (b2z (Z.land bl bh =? 18446744073709551615)) = b2z ((A =? - h128) && (B =? -1))).
  { assert (Hand : (Z.land bl bh =? 18446744073709551615) = (B =? -1)).
    { subst B. rewrite sval_alt by auto. unfold lim in *. destruct (Z.eqb_spec (Z.land bl bh) 18446744073709551615) as [e|n].
      - assert (Z.land bl bh <= bl).
        { destruct (land_bound bl bh 64) as [P1 P2]; try (rewrite ?pow64; lia). apply Z.ldiff_le; [lia|].
          apply Z.bits_inj'. intros i Hi. rewrite Z.ldiff_spec, Z.land_spec, Z.bits_0.
          destruct (Z.testbit bl i), (Z.testbit bh i); reflexivity. }
        assert (Z.land bl bh <= bh).
        { apply Z.ldiff_le; [lia|].
          apply Z.bits_inj'. intros i Hi. rewrite Z.ldiff_spec, Z.land_spec, Z.bits_0.
          destruct (Z.testbit bl i), (Z.testbit bh i); reflexivity. }
        destruct (Z.leb_spec h64 bh); lia.
      - destruct (Z.leb_spec h64 bh); symmetry; apply Z.eqb_neq; [|lia]. intros e.
        assert (bl = m64 - 1) by lia. assert (bh = m64 - 1) by lia. subst. apply n. reflexivity. }
    rewrite Hand. subst A. rewrite sval_alt by auto. unfold lim in *. clear - H1 H2.
    destruct (Z.eqb_spec al 0), (Z.eqb_spec ah 9223372036854775808), (Z.leb_spec h64 ah);
      destruct (B =? -1); rewrite ?andb_false_r, ?andb_true_r; try reflexivity; try lia;
      match goal with |- context [?x =? ?y] => destruct (Z.eqb_spec x y); try lia; reflexivity end. }
  rewrite Hcond. wif Hc.
  { wpure. wcall HE. apply runtime_error_wp; auto. wfin.
    destruct (Z.eqb_spec B 0); [lia|]. rewrite Hc in H. exact H. }
  wnil. wpure. rewrite !sar63', xor_all by auto. 
  pose proof (nabs al ah H1 H2) as NA. fold A in NA. pose proof (nabs bl bh H3 H4) as NB. fold B in NB.
  pose proof (sval_sign al ah H1 H2) as SA. fold A in SA. pose proof (sval_sign bl bh H3 H4) as SB. fold B in SB.
  rewrite SA in *. rewrite SB in *. set (na := A <? 0) in *. set (nb := B <? 0) in *.
  negif na.
  assert (Hdone : B <> 0 -> R (RVals (i128 (Z.quot A B)) st)).
  { intros HB. destruct (Z.eqb_spec B 0); [lia|]. rewrite Hc in H. exact H. }
  assert (Hzero : B = 0 -> R (err 2 st)).
  { intros HB. rewrite HB in H. exact H. }
  assert (QR : B <> 0 -> 0 <= Z.abs A / Z.abs B < m128).
  { intros HB. split; [apply Z.div_pos; lia|]. apply Z.le_lt_trans with (Z.abs A); [|lia]. apply Z.div_le_upper_bound; [lia|].
    assert (1 * Z.abs A <= Z.abs B * Z.abs A) by (apply Z.mul_le_mono_nonneg_r; lia). lia. }
  assert (Hdone' : B <> 0 -> R (RVals (i128 (if xorb na nb then - (Z.abs A / Z.abs B) else Z.abs A / Z.abs B)) st)).
  { intros HB. specialize (Hdone HB). rewrite quot_abs in Hdone by auto. exact Hdone. }
  clear H Hcond Hc Hdone. rename Hdone' into Hdone.
  clear SA SB. clearbody na nb. clearbody A B.
  destruct na; [wpure; wcall HE; apply (sub_int128_wp E HE); [apply lim0|apply lim0|auto|auto|]; wfin; wpure; wnil; fold (nlo al) (nhi al ah)|wnil].
  all: wpure; negif nb.
  all: destruct nb; [wpure; wcall HE; apply (sub_int128_wp E HE); [apply lim0|apply lim0|auto|auto|]; wfin; wpure; wnil; fold (nlo bl) (nhi bl bh)|wnil].
  all: wpure; wcall HE; apply div_int128_wp; auto using nlo_lim, nhi_lim; rewrite NA, NB; wfin; cbn [xorb] in *.
  all: destruct (Z.eqb_spec (Z.abs B) 0); [apply Hzero; lia|].
  all: specialize (Hdone ltac:(lia)); specialize (QR ltac:(lia)).
  all: unfold u128; rewrite pow64; wcbn; wpure.
  all: set (v := Z.abs A / Z.abs B) in *.
  all: match type of Hdone with ?r (RVals (i128 (- _)) _) => negif true | _ => negif false end.
  all: match goal with
       | |- context [Call _] => wpure; wcall HE; apply (sub_int128_wp E HE); [apply lim0|apply lim0|unfold lim; clear - QR; zlia|unfold lim; clear - QR; zlia|]; wfin; wpure; wnil
       | _ => wnil end.
  all: wpure; wret.
  all: fold (nlo (v mod m64)) (nhi (v mod m64) (v / m64)).
  all: match type of Hdone with ?r (RVals (i128 (- _)) _) => rewrite <- (signed_result true v QR) in Hdone | _ => rewrite <- (signed_result false v QR) in Hdone end; exact Hdone.
Qed.

Lemma mod_int_wp al ah bl bh st R :
  lim al -> lim ah -> lim bl -> lim bh ->
  R (if sval128 bl bh =? 0 then err 2 st
     else RVals (i128 (Z.rem (sval128 al ah) (sval128 bl bh))) st) ->
  wpf E "stdlib.mod-int" [VI64 al; VI64 ah; VI64 bl; VI64 bh] st R.
Proof.
  intros H1 H2 H3 H4 H.
  set (A := sval128 al ah) in *. set (B := sval128 bl bh) in *.
  pose proof (sval_range al ah H1 H2) as RA. pose proof (sval_range bl bh H3 H4) as RB. fold A in RA. fold B in RB.
  wenter HE. wpure. rewrite !sar63', xor_all by auto.
  pose proof (nabs al ah H1 H2) as NA. fold A in NA. pose proof (nabs bl bh H3 H4) as NB. fold B in NB.
  pose proof (sval_sign al ah H1 H2) as SA. fold A in SA. pose proof (sval_sign bl bh H3 H4) as SB. fold B in SB.
  rewrite SA in *. rewrite SB in *. set (na := A <? 0) in *. set (nb := B <? 0) in *.
  negif na.
  assert (Hdone : B <> 0 -> R (RVals (i128 (if na then - (Z.abs A mod Z.abs B) else Z.abs A mod Z.abs B)) st)).
  { intros HB. destruct (Z.eqb_spec B 0); [lia|]. rewrite rem_abs in H by auto. exact H. }
  assert (Hzero : B = 0 -> R (err 2 st)).
  { intros HB. rewrite HB in H. exact H. }
  assert (QR : B <> 0 -> 0 <= Z.abs A mod Z.abs B < m128).
  { intros HB. pose proof (Z.mod_pos_bound (Z.abs A) (Z.abs B)). lia. }
  clear H.
  clear SA SB. clearbody na nb. clearbody A B.
  destruct na; [wpure; wcall HE; apply (sub_int128_wp E HE); [apply lim0|apply lim0|auto|auto|]; wfin; wpure; wnil; fold (nlo al) (nhi al ah)|wnil].
  all: wpure; negif nb.
  all: destruct nb; [wpure; wcall HE; apply (sub_int128_wp E HE); [apply lim0|apply lim0|auto|auto|]; wfin; wpure; wnil; fold (nlo bl) (nhi bl bh)|wnil].
  all: wpure; wcall HE; apply div_int128_wp; auto using nlo_lim, nhi_lim; rewrite NA, NB; wfin; cbn [xorb] in *.
  all: destruct (Z.eqb_spec (Z.abs B) 0); [apply Hzero; lia|].
  all: specialize (Hdone ltac:(lia)); specialize (QR ltac:(lia)).
  all: unfold u128; rewrite pow64; wcbn; wpure.
  all: set (v := Z.abs A mod Z.abs B) in *.
  all: match type of Hdone with ?r (RVals (i128 (- _)) _) => negif true | _ => negif false end.
  all: match goal with
       | |- context [Call _] => wpure; wcall HE; apply (sub_int128_wp E HE); [apply lim0|apply lim0|unfold lim; clear - QR; zlia|unfold lim; clear - QR; zlia|]; wfin; wpure; wnil
       | _ => wnil end.
  all: wpure; wret.
  all: fold (nlo (v mod m64)) (nhi (v mod m64) (v / m64)).
  all: match type of Hdone with ?r (RVals (i128 (- _)) _) => rewrite <- (signed_result true v QR) in Hdone | _ => rewrite <- (signed_result false v QR) in Hdone end; exact Hdone.
Qed.
End Div.
