(** * Proofs about the 128-bit arithmetic of the runtime library. *)
From Coq Require Import ZArith String List Bool Lia.
Import ListNotations.
From Verif Require Import Wasm Std StdEnv WasmLogic WasmTac Spec.
Open Scope Z_scope.

Definition lim (x : Z) : Prop := 0 <= x < m64.

Lemma sgn64_lt0 x : lim x -> (sgn64 x <? sgn64 0) = (h64 <=? x).
Proof. unfold lim, sgn64. intros. change (0 <? h64) with true. cbv iota. destruct (Z.ltb_spec x h64); lia. Qed.

Section Arith.
Context {HS : Type} (E : env HS) (HE : has_std E).
Implicit Types (st : store HS) (R : result HS -> Prop).

Definition err (c : Z) (st : store HS) : result HS :=
  RTrap TUnreachable (with_glob st (gset (sglob st) "runtime-error-code" (VI32 c))).

Lemma runtime_error_wp c st R :
  R (err c st) -> wpf E "stdlib.runtime-error" [VI32 c] st R.
Proof.
  intros H. wenter HE. wpure. apply wp_gset. apply wp_unreachable. exact H.
Qed.

Ltac wfin := unfold qcall, qblock, qfunc; wcbn.

Lemma add_int128_wp al ah bl bh st R :
  lim al -> lim ah -> lim bl -> lim bh ->
  R (RVals [VI64 ((al + bl) mod m64);
            VI64 ((ah + bh + (al + bl) / m64) mod m64)] st) ->
  wpf E "stdlib.add-int128" [VI64 al; VI64 ah; VI64 bl; VI64 bh] st R.
Proof.
  intros H1 H2 H3 H4 H. wenter HE. wpure. wnil. unfold lim in *. rconv H.
  unfold b2z. destruct (Z.ltb_spec ((al + bl) mod 18446744073709551616) al); zlia.
Qed.

Ltac cmp_tac H :=
  wpure; wnil; unfold lim in *; rconv H; rewrite b2z_eq0;
  match goal with |- context [?x =? ?y] => destruct (Z.eqb_spec x y) end;
  cbn [negb]; f_equal; unfold sgn64;
  repeat match goal with |- context [?x <? 9223372036854775808] => destruct (Z.ltb_spec x 9223372036854775808) end; lia.

Notation val128 l h := (l + m64 * h).
Notation sval128 l h := (l + m64 * sgn64 h).

Lemma lt_uint_wp al ah bl bh st R :
  lim al -> lim ah -> lim bl -> lim bh ->
  R (RVals [VI32 (b2z (val128 al ah <? val128 bl bh))] st) ->
  wpf E "stdlib.lt-uint" [VI64 al; VI64 ah; VI64 bl; VI64 bh] st R.
Proof. intros H1 H2 H3 H4 H. wenter HE. cmp_tac H. Qed.

Lemma gt_uint_wp al ah bl bh st R :
  lim al -> lim ah -> lim bl -> lim bh ->
  R (RVals [VI32 (b2z (val128 al ah >? val128 bl bh))] st) ->
  wpf E "stdlib.gt-uint" [VI64 al; VI64 ah; VI64 bl; VI64 bh] st R.
Proof. intros H1 H2 H3 H4 H. rewrite Z.gtb_ltb in H. wenter HE. cmp_tac H. Qed.

Lemma le_uint_wp al ah bl bh st R :
  lim al -> lim ah -> lim bl -> lim bh ->
  R (RVals [VI32 (b2z (val128 al ah <=? val128 bl bh))] st) ->
  wpf E "stdlib.le-uint" [VI64 al; VI64 ah; VI64 bl; VI64 bh] st R.
Proof. intros H1 H2 H3 H4 H. wenter HE. cmp_tac H. Qed.

Lemma ge_uint_wp al ah bl bh st R :
  lim al -> lim ah -> lim bl -> lim bh ->
  R (RVals [VI32 (b2z (val128 al ah >=? val128 bl bh))] st) ->
  wpf E "stdlib.ge-uint" [VI64 al; VI64 ah; VI64 bl; VI64 bh] st R.
Proof. intros H1 H2 H3 H4 H. rewrite Z.geb_leb in H. wenter HE. cmp_tac H. Qed.

Lemma lt_int_wp al ah bl bh st R :
  lim al -> lim ah -> lim bl -> lim bh ->
  R (RVals [VI32 (b2z (sval128 al ah <? sval128 bl bh))] st) ->
  wpf E "stdlib.lt-int" [VI64 al; VI64 ah; VI64 bl; VI64 bh] st R.
Proof. intros H1 H2 H3 H4 H. wenter HE. cmp_tac H. Qed.

Lemma gt_int_wp al ah bl bh st R :
  lim al -> lim ah -> lim bl -> lim bh ->
  R (RVals [VI32 (b2z (sval128 al ah >? sval128 bl bh))] st) ->
  wpf E "stdlib.gt-int" [VI64 al; VI64 ah; VI64 bl; VI64 bh] st R.
Proof. intros H1 H2 H3 H4 H. rewrite Z.gtb_ltb in H. wenter HE. cmp_tac H. Qed.

Lemma le_int_wp al ah bl bh st R :
  lim al -> lim ah -> lim bl -> lim bh ->
  R (RVals [VI32 (b2z (sval128 al ah <=? sval128 bl bh))] st) ->
  wpf E "stdlib.le-int" [VI64 al; VI64 ah; VI64 bl; VI64 bh] st R.
Proof. intros H1 H2 H3 H4 H. wenter HE. cmp_tac H. Qed.

Lemma ge_int_wp al ah bl bh st R :
  lim al -> lim ah -> lim bl -> lim bh ->
  R (RVals [VI32 (b2z (sval128 al ah >=? sval128 bl bh))] st) ->
  wpf E "stdlib.ge-int" [VI64 al; VI64 ah; VI64 bl; VI64 bh] st R.
Proof. intros H1 H2 H3 H4 H. rewrite Z.geb_leb in H. wenter HE. cmp_tac H. Qed.

(** addition *)
Lemma add_uint_wp al ah bl bh st R :
  lim al -> lim ah -> lim bl -> lim bh ->
  R (if val128 al ah + val128 bl bh <? m128
     then RVals [VI64 ((al + bl) mod m64); VI64 (ah + bh + (al + bl) / m64)] st
     else err 0 st) ->
  wpf E "stdlib.add-uint" [VI64 al; VI64 ah; VI64 bl; VI64 bh] st R.
Proof.
  intros H1 H2 H3 H4 H. wenter HE. wpure.
  wcall HE. apply add_int128_wp; auto. wfin.
  wpure. wcall HE. apply lt_uint_wp; unfold lim in *; auto; try zlia. wfin.
  rsplit H; wif Hc.
  - zlia.
  - wnil. wpure. wnil. rconv H. zlia.
  - wpure. wcall HE. apply runtime_error_wp. wfin. exact H.
  - zlia.
Qed.

(** sign bit of a limb *)
Lemma sar63 x : lim x -> (sgn64 x / 9223372036854775808) mod m64 = if x <? h64 then 0 else m64 - 1.
Proof. unfold lim, sgn64. intros. destruct (Z.ltb_spec x h64); zlia. Qed.

Lemma add_int_wp al ah bl bh st R :
  lim al -> lim ah -> lim bl -> lim bh ->
  R (if (- h128 <=? sval128 al ah + sval128 bl bh) && (sval128 al ah + sval128 bl bh <? h128)
     then RVals [VI64 ((al + bl) mod m64); VI64 ((ah + bh + (al + bl) / m64) mod m64)] st
     else err 0 st) ->
  wpf E "stdlib.add-int" [VI64 al; VI64 ah; VI64 bl; VI64 bh] st R.
Proof.
  intros H1 H2 H3 H4 H. wenter HE. wpure.
  wcall HE. apply add_int128_wp; auto. wfin. wpure.
  assert (Hs : lim ((ah + bh + (al + bl) / m64) mod m64)) by (unfold lim; zlia).
  set (sh := (ah + bh + (al + bl) / m64) mod m64) in *.
  rewrite !sar63 by auto.
  unfold lim in *.
  wif Hc; [wpure; rewrite !sar63 by auto; wif Hd|].
  - wpure. wcall HE. apply runtime_error_wp. wfin. rsplit H; [|exact H].
    exfalso. unfold sgn64 in *.
    destruct (Z.ltb_spec ah h64), (Z.ltb_spec bh h64), (Z.ltb_spec sh h64); try (cbn in Hc, Hd; discriminate); subst sh; zlia.
  - wnil. wnil. wpure. wret. rsplit H; [rconv H|].
    exfalso. unfold sgn64 in *.
    destruct (Z.ltb_spec ah h64), (Z.ltb_spec bh h64), (Z.ltb_spec sh h64); try (cbn in Hc, Hd; discriminate); subst sh; zlia.
  - wnil. wpure. wret. rsplit H; [rconv H|].
    exfalso. unfold sgn64 in *.
    destruct (Z.ltb_spec ah h64), (Z.ltb_spec bh h64), (Z.ltb_spec sh h64); try (cbn in Hc; discriminate); subst sh; zlia.
Qed.

(** subtraction *)
Lemma sub_int128_wp al ah bl bh st R :
  lim al -> lim ah -> lim bl -> lim bh ->
  R (RVals [VI64 ((al - bl) mod m64);
            VI64 ((ah - bh + (al - bl) / m64) mod m64)] st) ->
  wpf E "stdlib.sub-int128" [VI64 al; VI64 ah; VI64 bl; VI64 bh] st R.
Proof.
  intros H1 H2 H3 H4 H. wenter HE. wpure. wret. unfold lim in *. rconv H.
  unfold b2z. destruct (Z.ltb_spec al bl); zlia.
Qed.

Lemma sub_int_wp al ah bl bh st R :
  lim al -> lim ah -> lim bl -> lim bh ->
  R (if (- h128 <=? sval128 al ah - sval128 bl bh) && (sval128 al ah - sval128 bl bh <? h128)
     then RVals [VI64 ((al - bl) mod m64); VI64 ((ah - bh + (al - bl) / m64) mod m64)] st
     else err 1 st) ->
  wpf E "stdlib.sub-int" [VI64 al; VI64 ah; VI64 bl; VI64 bh] st R.
Proof.
  intros H1 H2 H3 H4 H. wenter HE. wpure.
  wcall HE. apply sub_int128_wp; auto. wfin. wpure.
  assert (Hs : lim ((ah - bh + (al - bl) / m64) mod m64)) by (unfold lim; zlia).
  set (sh := (ah - bh + (al - bl) / m64) mod m64) in *.
  rewrite !sar63 by auto.
  unfold lim in *.
  wif Hc; [wpure; rewrite !sar63 by auto; wif Hd|].
  - wpure. wcall HE. apply runtime_error_wp. wfin. rsplit H; [|exact H].
    exfalso. unfold sgn64 in *.
    destruct (Z.ltb_spec ah h64), (Z.ltb_spec bh h64), (Z.ltb_spec sh h64); try (cbn in Hc, Hd; discriminate); subst sh; zlia.
  - wnil. wnil. wpure. wret. rsplit H; [rconv H|].
    exfalso. unfold sgn64 in *.
    destruct (Z.ltb_spec ah h64), (Z.ltb_spec bh h64), (Z.ltb_spec sh h64); try (cbn in Hc, Hd; discriminate); subst sh; zlia.
  - wnil. wpure. wret. rsplit H; [rconv H|].
    exfalso. unfold sgn64 in *.
    destruct (Z.ltb_spec ah h64), (Z.ltb_spec bh h64), (Z.ltb_spec sh h64); try (cbn in Hc; discriminate); subst sh; zlia.
Qed.

(** The code tests [diff_hi > a_hi]; with a borrow and [bh = 2^64-1] this misses the underflow. *)
Lemma sub_uint_wp al ah bl bh st R :
  lim al -> lim ah -> lim bl -> lim bh ->
  R (if (val128 bl bh <=? val128 al ah) || ((al <? bl) && (bh =? m64 - 1))
     then RVals [VI64 ((al - bl) mod m64); VI64 ((ah - bh + (al - bl) / m64) mod m64)] st
     else err 1 st) ->
  wpf E "stdlib.sub-uint" [VI64 al; VI64 ah; VI64 bl; VI64 bh] st R.
Proof.
  intros H1 H2 H3 H4 H. wenter HE. wpure.
  wcall HE. apply sub_int128_wp; auto. wfin. wpure. unfold lim in *.
  wif Hc.
  - wpure. wcall HE. apply runtime_error_wp. wfin. rsplit H; [|exact H]. zlia.
  - wnil. wpure. wret. rsplit H; [exact H|]. zlia.
Qed.
End Arith.
