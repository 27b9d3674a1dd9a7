(** * Proofs about parsing signed decimal strings, and what the parsers compute. *)
From Coq Require Import ZArith String List Bool Lia.
Import ListNotations.
From Verif Require Import Wasm Std StdEnv WasmLogic WasmTac Spec SpecBytes ZBits Mem ArithProofs BitProofs MulProofs ConvProofs ParseProofs.
Open Scope Z_scope.

Definition ures (s : list Z) : option Z :=
  if (0 <? Z.of_nat (length s)) && (Z.of_nat (length s) <? 40) then go1 0 s else None.

Definition ires1 (neg : bool) (o : option Z) : option Z :=
  match o with
  | Some v => if neg && (v =? h128) then Some (- h128)
              else if v <? h128 then Some (if neg then - v else v) else None
  | None => None
  end.
Definition ires (s : list Z) : option Z :=
  match s with
  | c :: r => if c =? 45 then ires1 true (ures r) else ires1 false (ures s)
  | [] => None
  end.

Lemma some_inj {A} (a b : A) : Some a = Some b -> a = b.
Proof. congruence. Qed.
Ltac sinj H := apply some_inj in H; subst.

Lemma go2_range s : forall v n, 0 <= v < M10 -> go2 v s = Some n -> 0 <= n < m128.
Proof.
  induction s as [|c r IH]; intros v n Hv H; cbn [go2] in H; [sinj H; lia|].
  destruct (is_digit c) eqn:Hd; [|discriminate]. destruct (digit_small c Hd) as [_ ?].
  destruct r as [|c2 r]; [sinj H; lia|].
  destruct (Z.ltb_spec (10 * v + (c - 48)) M10); [eapply IH; [|exact H]; lia|].
  unfold fin_char in H. destruct ((48 <=? c2) && (c2 <=? 53)) eqn:?; [|discriminate].
  sinj H. lia.
Qed.
Lemma go1_range s : forall v n, 0 <= v < T10 -> go1 v s = Some n -> 0 <= n < m128.
Proof.
  induction s as [|c r IH]; intros v n Hv H; cbn [go1] in H; [sinj H; lia|].
  destruct (is_digit c) eqn:Hd; [|discriminate]. destruct (digit_small c Hd) as [_ ?].
  destruct r as [|c2 r]; [sinj H; lia|].
  destruct (Z.ltb_spec (10 * v + (c - 48)) T10); [eapply IH; [|exact H]; lia|].
  eapply go2_range; [|exact H]. lia.
Qed.
Lemma ures_range s n : ures s = Some n -> 0 <= n < m128.
Proof.
  unfold ures. destruct (_ && _); [|discriminate]. apply go1_range. lia.
Qed.

Section ParseInt.
Context {HS : Type} (E : env HS) (HE : has_std E).
Implicit Types (st : store HS) (R : result HS -> Prop).
Ltac wfin := unfold qcall, qblock, qfunc; wcbn.

Lemma string_to_uint_len_wp a n st R :
  n = 0 \/ 40 <= n < m32 ->
  R (RVals [VI32 0; VI64 0; VI64 0] st) ->
  wpf E "stdlib.string-to-uint" [VI32 a; VI32 n] st R.
Proof.
  intros Hn H. wenter HE. wpure. wif Hc; [|zlia]. wpure. wret. exact H.
Qed.
Lemma utf8_to_uint_len_wp a n st R :
  n = 0 \/ 160 <= n < m32 ->
  R (RVals [VI32 0; VI64 0; VI64 0] st) ->
  wpf E "stdlib.utf8-to-uint" [VI32 a; VI32 n] st R.
Proof.
  intros Hn H. wenter HE. wpure. wif Hc; [|zlia]. wpure. wret. exact H.
Qed.

Lemma land_b x y : Z.land (b2z x) (b2z y) = b2z (x && y).
Proof. destruct x, y; reflexivity. Qed.
Lemma lor_b x y : Z.lor (b2z x) (b2z y) = b2z (x || y).
Proof. destruct x, y; reflexivity. Qed.

Lemma neg_limbs lo hi : lim lo -> lim hi ->
  i128 (- (lo + m64 * hi)) = [VI64 ((0 - lo) mod m64); VI64 ((0 - (hi + b2z (negb (lo =? 0))) mod m64) mod m64)].
Proof.
  unfold lim, i128, u128. intros. change (2 ^ 128) with m128. rewrite pow64.
  f_equal; [|f_equal]; f_equal; destruct (Z.eqb_spec lo 0); cbn [negb b2z]; zlia.
Qed.
Lemma i128_limbs lo hi : lim lo -> 0 <= hi < h64 -> i128 (lo + m64 * hi) = [VI64 lo; VI64 hi].
Proof.
  unfold lim, i128, u128. intros. change (2 ^ 128) with m128. rewrite pow64.
  f_equal; [|f_equal]; f_equal; zlia.
Qed.

(** the common end of string-to-int and utf8-to-int *)
Lemma ires1_cases neg o lo hi fl :
  (o = None -> lo = 0 /\ hi = 0 /\ fl = 0) -> (forall v, o = Some v -> 0 <= v < m128 /\ lo = v mod m64 /\ hi = v / m64 /\ fl = 1) ->
  lim lo /\ lim hi /\
  if neg && ((lo =? 0) && (hi =? h64)) then vopt i128 (ires1 neg o) = [VI32 1; VI64 0; VI64 h64] else
  if (fl =? 0) || (sgn64 hi <? 0) then vopt i128 (ires1 neg o) = [VI32 0; VI64 0; VI64 0] else
  if neg then vopt i128 (ires1 neg o) = [VI32 1; VI64 ((0 - lo) mod m64); VI64 ((0 - (hi + b2z (negb (lo =? 0))) mod m64) mod m64)]
  else vopt i128 (ires1 neg o) = [VI32 1; VI64 lo; VI64 hi].
Proof.
  intros H1 H2. destruct o as [v|].
  - clear H1. destruct (H2 v eq_refl) as (Hv & H3 & H4 & H5). subst fl.
    assert (Hv' : v = lo + m64 * hi) by (subst; clear; zlia).
    assert (L1 : lim lo) by (subst; unfold lim; zlia).
    assert (L2 : lim hi) by (subst; unfold lim; zlia).
    split; [auto|]. split; [auto|]. clear H2 H3 H4. unfold ires1.
    assert (Hb : ((lo =? 0) && (hi =? h64)) = (v =? h128)).
    { unfold lim in *. destruct (Z.eqb_spec lo 0), (Z.eqb_spec hi h64), (Z.eqb_spec v h128); simpl; try reflexivity; lia. }
    rewrite Hb. destruct neg; cbn [andb].
    + destruct (Z.eqb_spec v h128); [reflexivity|].
      change (1 =? 0) with false. cbn [orb]. unfold sgn64. unfold lim in *.
      destruct (Z.ltb_spec hi h64).
      * destruct (Z.ltb_spec hi 0); [lia|]. destruct (Z.ltb_spec v h128); [|lia].
        cbn [vopt]. rewrite Hv', neg_limbs by (unfold lim; lia). reflexivity.
      * destruct (Z.ltb_spec (hi - m64) 0); [|lia]. destruct (Z.ltb_spec v h128); [lia|]. reflexivity.
    + change (1 =? 0) with false. cbn [orb]. unfold sgn64. unfold lim in *.
      destruct (Z.ltb_spec hi h64).
      * destruct (Z.ltb_spec hi 0); [lia|]. destruct (Z.ltb_spec v h128); [|lia].
        cbn [vopt]. rewrite Hv', i128_limbs by (unfold lim; lia). reflexivity.
      * destruct (Z.ltb_spec (hi - m64) 0); [|lia]. destruct (Z.ltb_spec v h128); [lia|]. reflexivity.
  - destruct (H1 eq_refl) as (-> & -> & ->). split; [unfold lim; lia|]. split; [unfold lim; lia|].
    destruct neg; reflexivity.
Qed.

Ltac int_tail H neg o :=
  lazymatch goal with
  | |- wp _ _ _ _ => idtac
  end.

Lemma string_to_int_wp a s st R :
  holds (smem st) a s -> a + 1 <= msize (smem st) ->
  R (RVals (vopt i128 (ires s)) st) ->
  wpf E "stdlib.string-to-int" [VI32 a; vlen s] st R.
Proof.
  intros HB HO H. wenter HE. unfold vlen. wpure. apply wp_load; [cbn; lia|]. wpure.
  cbn [ldbytes ldn]. rewrite !Z.add_0_r. replace (rd (smem st) a + 256 * 0) with (rd (smem st) a) by lia.
  set (neg := rd (smem st) a =? 45).
  wcall HE.
  assert (HA : exists o, R (RVals (vopt i128 (ires1 neg o)) st) /\ (forall v, o = Some v -> 0 <= v < m128) /\
    forall R', R' (RVals (vopt vu o) st) -> wpf E "stdlib.string-to-uint" [VI32 ((a + b2z neg) mod m32); VI32 ((Z.of_nat (length s) - b2z neg) mod m32)] st R').
  { destruct s as [|c r].
    - exists None. split; [destruct neg; exact H|]. split; [discriminate|].
      intros R' HR. apply string_to_uint_len_wp; [destruct neg; vm_compute; intuition congruence|exact HR].
    - pose proof HB as HB0. apply holds_cons in HB as (Hx1 & Hx2 & Hx3 & Hx4 & Hx5 & Hx).
      assert (HL : 0 <= Z.of_nat (length (c :: r)) <= m32) by (destruct HB0 as (? & ? & _); lia).
      cbn [ires] in H. subst neg. rewrite Hx1. destruct (Z.eqb_spec c 45).
      + exists (ures r). split; [exact H|]. split; [apply ures_range|]. intros R' HR. cbn [b2z].
        assert (HLr : (Z.of_nat (length (c :: r)) - 1) mod m32 = Z.of_nat (length r)).
        { cbn [length] in *. rewrite Nat2Z.inj_succ in *. rewrite Z.mod_small; lia. }
        rewrite HLr. unfold ures in HR.
        destruct (Z.lt_ge_cases 0 (Z.of_nat (length r))).
        * assert (a + 1 < m32). { destruct Hx as (? & ? & _). lia. }
          rewrite (Z.mod_small (a + 1)) by lia. apply (string_to_uint_wp E HE); auto.
        * apply string_to_uint_len_wp; [lia|]. destruct (Z.ltb_spec 0 (Z.of_nat (length r))); [lia|]. exact HR.
      + exists (ures (c :: r)). split; [exact H|]. split; [apply ures_range|]. intros R' HR. cbn [b2z].
        rewrite Z.add_0_r, Z.sub_0_r, (Z.mod_small a) by lia.
        destruct (Z.lt_ge_cases (Z.of_nat (length (c :: r))) 40).
        * rewrite Z.mod_small by lia. apply (string_to_uint_wp E HE); auto.
        * unfold ures in HR. rewrite (proj2 (Z.ltb_ge _ 40)) in HR by lia. rewrite andb_false_r in HR.
          apply string_to_uint_len_wp; [|exact HR].
          destruct (Z.eq_dec (Z.of_nat (length (c :: r))) m32) as [->|]; [left; reflexivity|right].
          rewrite Z.mod_small; lia. }
  destruct HA as (o & HR & Hrng & HC). apply HC. clear HC H.
  assert (exists lo hi fl, vopt vu o = [VI32 fl; VI64 lo; VI64 hi] /\ 
    (o = None -> lo = 0 /\ hi = 0 /\ fl = 0) /\ (forall v, o = Some v -> 0 <= v < m128 /\ lo = v mod m64 /\ hi = v / m64 /\ fl = 1)) as (lo & hi & fl & -> & C1 & C2).
  { destruct o as [v|]; [exists (v mod m64), (v / m64), 1|exists 0, 0, 0]; (split; [reflexivity|]); split; try congruence; auto.
    intros v' Hv. injection Hv as <-. auto. }
  destruct (ires1_cases neg o lo hi fl C1 C2) as (L1 & L2 & HC). clear C1 C2 Hrng. clearbody neg.
  wfin. wpure. rewrite !land_b.
  wif H1.
  { rewrite H1 in HC. wpure. wret. rewrite HC in HR. exact HR. }
  rewrite H1 in HC. wnil. wpure. rewrite !lor_b. change (sgn64 0) with 0.
  wif H2.
  { rewrite H2 in HC. wpure. wret. rewrite HC in HR. exact HR. }
  rewrite H2 in HC. wnil. wpure. rewrite b2z_eq0. wif H3.
  - wpure. wnil. wnil. destruct neg; [discriminate|]. rewrite HC in HR. exact HR.
  - wpure. wnil. wnil. destruct neg; [|discriminate]. rewrite HC in HR. exact HR.
Qed.
(** UTF-8 int *)
Lemma u4_minus c : 0 <= c < 2 ^ 32 -> (le_val (be4 c) =? 754974720) = (c =? 45).
Proof.
  intros Hc. cbn [le_val be4].
  change (2 ^ 24) with 16777216. change (2 ^ 16) with 65536. change (2 ^ 8) with 256. change (2 ^ 32) with m32 in Hc.
  match goal with |- (?x =? _) = _ => destruct (Z.eqb_spec x 754974720), (Z.eqb_spec c 45) end; try reflexivity; exfalso; zlia.
Qed.
Lemma utf8_to_int_wp a s st R :
  Forall (fun c => 0 <= c < 2 ^ 32) s -> holds (smem st) a (utf8_mem s) -> a + 4 <= msize (smem st) ->
  R (RVals (vopt i128 (ires s)) st) ->
  wpf E "stdlib.utf8-to-int" [VI32 a; VI32 (4 * Z.of_nat (length s))] st R.
Proof.
  intros HF HB HO H. wenter HE. wpure. apply wp_load; [cbn; lia|]. wpure.
  cbn [ldbytes]. rewrite !Z.add_0_r.
  set (neg := ldn (smem st) a 4 =? 754974720).
  assert (N4 : (b2z neg * 2 ^ (2 mod 32)) mod m32 = if neg then 4 else 0) by (destruct neg; reflexivity).
  change (2 ^ (2 mod 32)) with 4 in N4. rewrite N4. clear N4.
  wcall HE.
  assert (HA : exists o, R (RVals (vopt i128 (ires1 neg o)) st) /\ (forall v, o = Some v -> 0 <= v < m128) /\
    forall R', R' (RVals (vopt vu o) st) -> wpf E "stdlib.utf8-to-uint" [VI32 ((a + if neg then 4 else 0) mod m32); VI32 ((4 * Z.of_nat (length s) - if neg then 4 else 0) mod m32)] st R').
  { destruct s as [|c r].
    - exists None. split; [destruct neg; exact H|]. split; [discriminate|].
      intros R' HR. apply utf8_to_uint_len_wp; [destruct neg; vm_compute; intuition congruence|exact HR].
    - pose proof HB as HB0. apply Forall_cons_iff in HF as HF0. destruct HF0 as [Hx2 HFr].
      apply holds_u4 in HB as (Hx1 & Hx3 & Hx4 & Hx5 & Hx); [|exact Hx2].
      assert (HL : 0 <= 4 * Z.of_nat (length (c :: r)) <= m32) by (destruct HB0 as (? & ? & _); rewrite utf8_mem_len in *; lia).
      cbn [ires] in H. subst neg. rewrite Hx1, u4_minus by exact Hx2. destruct (Z.eqb_spec c 45).
      + exists (ures r). split; [exact H|]. split; [apply ures_range|]. intros R' HR.
        assert (HLr : (4 * Z.of_nat (length (c :: r)) - 4) mod m32 = 4 * Z.of_nat (length r)).
        { cbn [length] in *. rewrite Nat2Z.inj_succ in *. rewrite Z.mod_small; lia. }
        rewrite HLr. unfold ures in HR.
        destruct (Z.lt_ge_cases 0 (Z.of_nat (length r))).
        * assert (a + 4 < m32). { destruct Hx as (? & ? & _). rewrite utf8_mem_len in *. lia. }
          rewrite (Z.mod_small (a + 4)) by lia. apply (utf8_to_uint_wp E HE); auto.
        * apply utf8_to_uint_len_wp; [lia|]. destruct (Z.ltb_spec 0 (Z.of_nat (length r))); [lia|]. exact HR.
      + exists (ures (c :: r)). split; [exact H|]. split; [apply ures_range|]. intros R' HR.
        rewrite Z.add_0_r, Z.sub_0_r, (Z.mod_small a) by lia.
        destruct (Z.lt_ge_cases (Z.of_nat (length (c :: r))) 40).
        * rewrite Z.mod_small by lia. apply (utf8_to_uint_wp E HE); auto.
        * unfold ures in HR. rewrite (proj2 (Z.ltb_ge _ 40)) in HR by lia. rewrite andb_false_r in HR.
          apply utf8_to_uint_len_wp; [|exact HR].
          destruct (Z.eq_dec (4 * Z.of_nat (length (c :: r))) m32) as [->|]; [left; reflexivity|right].
          rewrite Z.mod_small; lia. }
  destruct HA as (o & HR & Hrng & HC). apply HC. clear HC H.
  assert (exists lo hi fl, vopt vu o = [VI32 fl; VI64 lo; VI64 hi] /\ 
    (o = None -> lo = 0 /\ hi = 0 /\ fl = 0) /\ (forall v, o = Some v -> 0 <= v < m128 /\ lo = v mod m64 /\ hi = v / m64 /\ fl = 1)) as (lo & hi & fl & -> & C1 & C2).
  { destruct o as [v|]; [exists (v mod m64), (v / m64), 1|exists 0, 0, 0]; (split; [reflexivity|]); split; try congruence; auto.
    intros v' Hv. injection Hv as <-. auto. }
  destruct (ires1_cases neg o lo hi fl C1 C2) as (L1 & L2 & HC). clear C1 C2 Hrng. clearbody neg.
  wfin. wpure.
  assert (N4 : negb ((if neg then 4 else 0) =? 0) = neg) by (destruct neg; reflexivity). rewrite N4. clear N4. rewrite !land_b.
  wif H1.
  { rewrite H1 in HC. wpure. wret. rewrite HC in HR. exact HR. }
  rewrite H1 in HC. wnil. wpure. rewrite !lor_b. change (sgn64 0) with 0.
  wif H2.
  { rewrite H2 in HC. wpure. wret. rewrite HC in HR. exact HR. }
  rewrite H2 in HC. wnil. wpure. wif H3.
  - wpure. wnil. wnil. destruct neg; [discriminate|]. rewrite HC in HR. exact HR.
  - wpure. wnil. wnil. destruct neg; [|discriminate]. rewrite HC in HR. exact HR.
Qed.
End ParseInt.
