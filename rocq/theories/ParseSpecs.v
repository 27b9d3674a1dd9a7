(** * What the parsers compute equals the decimal specification, outside the wrong set. *)
From Coq Require Import ZArith String List Bool Lia.
Import ListNotations.
From Verif Require Import Wasm Std StdEnv WasmLogic Spec SpecBytes Mem ArithProofs ParseProofs ParseIntProofs.
Open Scope Z_scope.

Lemma dec_acc s : forall n, fold_left (fun n c => 10 * n + (c - 48)) s n = n * 10 ^ Z.of_nat (length s) + dec_value s.
Proof.
  unfold dec_value. induction s as [|b s IH]; intros n.
  - simpl. lia.
  - cbn [fold_left length]. rewrite (IH (10 * n + (b - 48))), (IH (10 * 0 + (b - 48))), Nat2Z.inj_succ, Z.pow_succ_r by lia. ring.
Qed.
Lemma dec_app xs ys : dec_value (xs ++ ys) = dec_value xs * 10 ^ Z.of_nat (length ys) + dec_value ys.
Proof. unfold dec_value at 1. rewrite fold_left_app, dec_acc. reflexivity. Qed.
Lemma dec_cons x ys : dec_value (x :: ys) = (x - 48) * 10 ^ Z.of_nat (length ys) + dec_value ys.
Proof. change (x :: ys) with ([x] ++ ys). rewrite dec_app. f_equal. Qed.
Lemma dec_snoc xs c : dec_value (xs ++ [c]) = 10 * dec_value xs + (c - 48).
Proof. rewrite dec_app. unfold dec_value at 2. cbn [fold_left length]. change (10 ^ Z.of_nat 1) with 10. lia. Qed.

Lemma dec_bound s : forallb is_digit s = true -> 0 <= dec_value s < 10 ^ Z.of_nat (length s).
Proof.
  induction s as [|c s IH]; intros H; [unfold dec_value; simpl; lia|].
  cbn [forallb] in H. apply andb_true_iff in H as [H1 H2]. destruct (digit_small c H1) as [_ ?].
  specialize (IH H2). rewrite dec_cons. cbn [length]. rewrite Nat2Z.inj_succ, Z.pow_succ_r by lia. nia.
Qed.

Definition gof (P c : Z) : option Z := if P <? M10 then Some (10 * P + (c - 48)) else fin_char c.

Lemma pow10_38 K v : 0 <= K -> M10 <= v -> v < 10 ^ K -> 38 <= K.
Proof.
  intros HK H1 H2. destruct (Z.lt_ge_cases K 38); [|lia]. exfalso.
  assert (10 ^ K <= 10 ^ 37) by (apply Z.pow_le_mono_r; lia). change (10 ^ 37) with 10000000000000000000000000000000000000 in *. lia.
Qed.

Lemma go2_digits p : forall c v K, forallb is_digit (p ++ [c]) = true -> 0 <= K -> 0 <= v < 10 ^ K -> v < M10 ->
  K + Z.of_nat (length p) + 1 <= 39 ->
  go2 v (p ++ [c]) = gof (v * 10 ^ Z.of_nat (length p) + dec_value p) c.
Proof.
  induction p as [|x p IH]; intros c v K Hd HK Hv HvM Hlen.
  - cbn [app forallb] in Hd. rewrite andb_true_r in Hd. cbn [app go2 length]. rewrite Hd.
    unfold gof. change (dec_value []) with 0. change (10 ^ Z.of_nat 0) with 1.
    replace (v * 1 + 0) with v by lia. destruct (Z.ltb_spec v M10); [reflexivity|lia].
  - cbn [app forallb] in Hd. apply andb_true_iff in Hd as [Hx Hd]. destruct (digit_small x Hx) as [_ Hx2].
    cbn [app go2]. rewrite Hx. set (v' := 10 * v + (x - 48)).
    assert (Hv' : 0 <= v' < 10 ^ (K + 1)) by (rewrite Z.pow_add_r by lia; subst v'; lia).
    assert (HP : v * 10 ^ Z.of_nat (length (x :: p)) + dec_value (x :: p) = v' * 10 ^ Z.of_nat (length p) + dec_value p).
    { rewrite dec_cons. cbn [length]. rewrite Nat2Z.inj_succ, Z.pow_succ_r by lia. subst v'. ring. }
    rewrite HP. cbn [length] in Hlen. rewrite Nat2Z.inj_succ in Hlen.
    destruct (Z.ltb_spec v' M10).
    + rewrite <- (IH c v' (K + 1)) by (auto; lia). destruct (p ++ [c]) eqn:Ep; [destruct p; discriminate|reflexivity].
    + pose proof (pow10_38 (K + 1) v' ltac:(lia) ltac:(lia) ltac:(lia)).
      destruct p; [|cbn [length] in *; lia]. cbn [app]. unfold gof. change (dec_value []) with 0.
      cbn [length]. change (10 ^ Z.of_nat 0) with 1. rewrite Z.mul_1_r, Z.add_0_r.
      destruct (Z.ltb_spec v' M10); [lia|reflexivity].
Qed.

Lemma go2_nondigit s : forall v K, forallb is_digit s = false -> 0 <= K -> 0 <= v < 10 ^ K -> v < M10 ->
  K + Z.of_nat (length s) <= 39 -> go2 v s = None.
Proof.
  induction s as [|x s IH]; intros v K Hd HK Hv HvM Hlen; [discriminate|].
  cbn [go2]. destruct (is_digit x) eqn:Hx; [|reflexivity].
  cbn [forallb] in Hd. rewrite Hx in Hd. cbn [andb] in Hd. destruct (digit_small x Hx) as [_ Hx2].
  destruct s as [|c2 s]; [discriminate|]. set (v' := 10 * v + (x - 48)).
  assert (Hv' : 0 <= v' < 10 ^ (K + 1)) by (rewrite Z.pow_add_r by lia; subst v'; lia).
  cbn [length] in Hlen. rewrite !Nat2Z.inj_succ in Hlen.
  destruct (Z.ltb_spec v' M10).
  - apply (IH v' (K + 1)); auto; try lia. cbn [length]. rewrite Nat2Z.inj_succ. lia.
  - pose proof (pow10_38 (K + 1) v' ltac:(lia) ltac:(lia) ltac:(lia)).
    destruct s; [|cbn [length] in *; lia]. cbn [forallb] in Hd. rewrite andb_true_r in Hd.
    unfold fin_char. unfold is_digit in Hd. destruct ((48 <=? c2) && (c2 <=? 53)) eqn:?; [|reflexivity]. lia.
Qed.

Lemma go1_digits p : forall c v K, forallb is_digit (p ++ [c]) = true -> 0 <= K -> 0 <= v < 10 ^ K -> v < T10 ->
  K + Z.of_nat (length p) + 1 <= 39 ->
  go1 v (p ++ [c]) = gof (v * 10 ^ Z.of_nat (length p) + dec_value p) c.
Proof.
  induction p as [|x p IH]; intros c v K Hd HK Hv HvM Hlen.
  - cbn [app forallb] in Hd. rewrite andb_true_r in Hd. cbn [app go1 length]. rewrite Hd.
    unfold gof. change (dec_value []) with 0. change (10 ^ Z.of_nat 0) with 1.
    replace (v * 1 + 0) with v by lia. destruct (Z.ltb_spec v M10); [reflexivity|lia].
  - cbn [app forallb] in Hd. apply andb_true_iff in Hd as [Hx Hd]. destruct (digit_small x Hx) as [_ Hx2].
    cbn [app go1]. rewrite Hx. set (v' := 10 * v + (x - 48)).
    assert (Hv' : 0 <= v' < 10 ^ (K + 1)) by (rewrite Z.pow_add_r by lia; subst v'; lia).
    assert (HP : v * 10 ^ Z.of_nat (length (x :: p)) + dec_value (x :: p) = v' * 10 ^ Z.of_nat (length p) + dec_value p).
    { rewrite dec_cons. cbn [length]. rewrite Nat2Z.inj_succ, Z.pow_succ_r by lia. subst v'. ring. }
    rewrite HP. cbn [length] in Hlen. rewrite Nat2Z.inj_succ in Hlen.
    assert (Hne : p ++ [c] <> []) by (destruct p; discriminate).
    assert (HvM10 : v' < M10) by (subst v'; lia).
    destruct (Z.ltb_spec v' T10).
    + rewrite <- (IH c v' (K + 1)) by (auto; lia). destruct (p ++ [c]); [contradiction|reflexivity].
    + rewrite <- (go2_digits p c v' (K + 1)) by (auto; lia). destruct (p ++ [c]); [contradiction|reflexivity].
Qed.

Lemma go1_nondigit s : forall v K, forallb is_digit s = false -> 0 <= K -> 0 <= v < 10 ^ K -> v < T10 ->
  K + Z.of_nat (length s) <= 39 -> go1 v s = None.
Proof.
  induction s as [|x s IH]; intros v K Hd HK Hv HvM Hlen; [discriminate|].
  cbn [go1]. destruct (is_digit x) eqn:Hx; [|reflexivity].
  cbn [forallb] in Hd. rewrite Hx in Hd. cbn [andb] in Hd. destruct (digit_small x Hx) as [_ Hx2].
  destruct s as [|c2 s]; [discriminate|]. set (v' := 10 * v + (x - 48)).
  assert (Hv' : 0 <= v' < 10 ^ (K + 1)) by (rewrite Z.pow_add_r by lia; subst v'; lia).
  assert (HvM10 : v' < M10) by (subst v'; lia).
  cbn [length] in Hlen. rewrite !Nat2Z.inj_succ in Hlen.
  destruct (Z.ltb_spec v' T10).
  - apply (IH v' (K + 1)); auto; try lia. cbn [length]. rewrite Nat2Z.inj_succ. lia.
  - apply (go2_nondigit _ v' (K + 1)); auto; try lia. cbn [length]. rewrite Nat2Z.inj_succ. lia.
Qed.

(** strings of at most 39 digits on which the uint parsers are wrong *)
Definition misparsed (s : list Z) : Prop :=
  forallb is_digit s = true /\ 2 ^ 128 + 4 <= dec_value s /\ dec_value s mod 10 <= 5.

Lemma ures_spec s : (length s <= 39)%nat ->
  (misparsed s -> ures s = Some (2 ^ 128 - 6 + dec_value s mod 10)) /\
  (~ misparsed s -> ures s = uint_of_string s).
Proof.
  intros Hl. unfold ures, uint_of_string, decimal, misparsed. change (2 ^ 128) with m128.
  destruct s as [|c0 s0]; [split; [intros (_ & H & _); vm_compute in H; congruence|reflexivity]|].
  set (s := c0 :: s0) in *. assert (Hne : s <> []) by discriminate.
  assert (H1 : (0 <? Z.of_nat (length s)) = true) by (subst s; cbn [length]; lia).
  rewrite H1, (proj2 (Z.ltb_lt _ 40)) by lia. cbn [andb].
  destruct (forallb is_digit s) eqn:Hd.
  - destruct (exists_last Hne) as (p & c & Es). clearbody s. subst s.
    rewrite app_length in Hl. cbn [length] in Hl.
    rewrite (go1_digits p c 0 0) by (auto; try lia; vm_compute; auto).
    rewrite Z.mul_0_l, Z.add_0_l, dec_snoc.
    rewrite forallb_app in Hd. apply andb_true_iff in Hd as [Hp Hc]. cbn [forallb] in Hc. rewrite andb_true_r in Hc.
    destruct (digit_small c Hc) as [_ Hc2]. pose proof (dec_bound p Hp) as [Hp0 _].
    set (P := dec_value p) in *. clearbody P. unfold gof, fin_char.
    assert (Hm : (10 * P + (c - 48)) mod 10 = c - 48) by (clear - Hc2; Z.to_euclidean_division_equations; lia).
    rewrite Hm.
    destruct (Z.ltb_spec P M10).
    + split; [lia|]. intros _. destruct (Z.ltb_spec (10 * P + (c - 48)) m128); [reflexivity|lia].
    + destruct ((48 <=? c) && (c <=? 53)) eqn:H5.
      * split; [reflexivity|]. intros Hn. assert (P = M10) by lia. subst P.
        destruct (Z.ltb_spec (10 * M10 + (c - 48)) m128); [f_equal; lia|lia].
      * split; [lia|]. intros _. destruct (Z.ltb_spec (10 * P + (c - 48)) m128); [lia|reflexivity].
  - split; [intros [? _]; discriminate|intros _].
    rewrite (go1_nondigit s 0 0) by (auto; try lia; vm_compute; auto). reflexivity.
Qed.

Lemma ures_long s : (39 < length s)%nat -> ures s = None.
Proof. intros. unfold ures. rewrite (proj2 (Z.ltb_ge _ 40)) by lia. rewrite andb_false_r. reflexivity. Qed.

(** number of digits after an optional sign *)
Definition unsign (s : list Z) : list Z := match s with 45 :: r => r | _ => s end.

Lemma ires1_spec neg s : (length s <= 39)%nat ->
  ires1 neg (ures s) =
  match option_map (fun v => if neg then - v else v) (decimal s) with
  | Some n => if (- 2 ^ 127 <=? n) && (n <? 2 ^ 127) then Some n else None
  | None => None
  end.
Proof.
  intros Hl. destruct (ures_spec s Hl) as [H1 H2]. change (2 ^ 127) with h128. change (2 ^ 128) with m128 in *.
  assert (D : (forallb is_digit s = true /\ m128 + 4 <= dec_value s /\ dec_value s mod 10 <= 5) \/ ~ misparsed s).
  { unfold misparsed. destruct (forallb is_digit s); [|right; intros [? _]; discriminate].
    change (2 ^ 128) with m128.
    destruct (Z.le_gt_cases (m128 + 4) (dec_value s)); [|right; lia].
    destruct (Z.le_gt_cases (dec_value s mod 10) 5); [left; auto|right; lia]. }
  destruct D as [D|D].
  - rewrite (H1 D). destruct D as (Da & Db & Dc).
    pose proof (Z.mod_pos_bound (dec_value s) 10 ltac:(lia)).
    unfold decimal. destruct s as [|c s]; [exfalso; apply Db; reflexivity|].
    rewrite Da. cbn [option_map ires1]. set (d := dec_value (c :: s)) in *. clearbody d.
    destruct (Z.eqb_spec (m128 - 6 + d mod 10) h128); [lia|]. rewrite andb_false_r.
    destruct (Z.ltb_spec (m128 - 6 + d mod 10) h128); [lia|].
    destruct neg; match goal with |- _ = if ?b then _ else _ => destruct b eqn:?; [lia|reflexivity] end.
  - rewrite (H2 D). unfold uint_of_string. change (2 ^ 128) with m128. destruct (decimal s) as [n|] eqn:Ed; [|reflexivity].
    assert (Hn0 : 0 <= n).
    { unfold decimal in Ed. destruct s; [discriminate|]. destruct (forallb is_digit _) eqn:Ef; [|discriminate].
      apply some_inj in Ed. subst. apply dec_bound in Ef. lia. }
    cbn [option_map]. destruct (Z.ltb_spec n m128).
    + cbn [ires1]. destruct neg; cbn [andb].
      * destruct (Z.eqb_spec n h128); [subst; reflexivity|].
        destruct (Z.ltb_spec n h128); match goal with |- _ = if ?b then _ else _ => destruct b eqn:?; try reflexivity; lia end.
      * destruct (Z.ltb_spec n h128); match goal with |- _ = if ?b then _ else _ => destruct b eqn:?; try reflexivity; lia end.
    + cbn [ires1]. destruct neg; match goal with |- _ = if ?b then _ else _ => destruct b eqn:?; [lia|reflexivity] end.
Qed.

Lemma unsign_cons c r : unsign (c :: r) = if c =? 45 then r else c :: r.
Proof.
  destruct (Z.eqb_spec c 45) as [->|Hn]; [reflexivity|]. unfold unsign.
  destruct c as [|p|p]; try reflexivity. do 6 (destruct p as [p|p|]; try reflexivity). congruence.
Qed.
Lemma int_of_string_cons c r : int_of_string (c :: r) =
  match (if c =? 45 then option_map Z.opp (decimal r) else decimal (c :: r)) with
  | Some n => if (- 2 ^ 127 <=? n) && (n <? 2 ^ 127) then Some n else None
  | None => None
  end.
Proof.
  destruct (Z.eqb_spec c 45) as [->|Hn]; [reflexivity|]. unfold int_of_string.
  destruct c as [|p|p]; try reflexivity. do 6 (destruct p as [p|p|]; try reflexivity). congruence.
Qed.

Lemma ires_spec s : (length (unsign s) <= 39)%nat -> ires s = int_of_string s.
Proof.
  intros Hl. destruct s as [|c r]; [reflexivity|]. rewrite unsign_cons in Hl. rewrite int_of_string_cons. cbn [ires].
  destruct (c =? 45).
  - rewrite ires1_spec by auto. reflexivity.
  - rewrite ires1_spec by auto. destruct (decimal (c :: r)); reflexivity.
Qed.
Lemma ires_long s : (39 < length (unsign s))%nat -> ires s = None.
Proof.
  intros Hl. destruct s as [|c r]; [reflexivity|]. rewrite unsign_cons in Hl. cbn [ires].
  destruct (c =? 45); rewrite ures_long by auto; reflexivity.
Qed.
