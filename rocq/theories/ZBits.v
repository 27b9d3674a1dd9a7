(** * Facts about bit operations on Z (proof support). *)
From Coq Require Import ZArith Lia ZifyBool.
Open Scope Z_scope.

Lemma testbit_high a k n : 0 <= k -> 0 <= a < 2 ^ k -> k <= n -> Z.testbit a n = false.
Proof.
  intros Hk [H0 Ha] Hn. destruct (Z.eq_dec a 0) as [->|Hz]; [apply Z.bits_0|].
  apply Z.bits_above_log2; [lia|].
  apply Z.lt_le_trans with k; [|lia]. apply Z.log2_lt_pow2; lia.
Qed.

Lemma land_shift_0 a b k : 0 <= k -> 0 <= a < 2 ^ k -> Z.land (b * 2 ^ k) a = 0.
Proof.
  intros Hk Ha. apply Z.bits_inj'. intros n Hn. rewrite Z.land_spec, Z.bits_0.
  destruct (Z.ltb_spec n k).
  - rewrite Z.mul_pow2_bits_low by lia. reflexivity.
  - rewrite (testbit_high a k n) by lia. apply Bool.andb_false_r.
Qed.

Lemma lor_add a b k : 0 <= k -> 0 <= a < 2 ^ k -> Z.lor (b * 2 ^ k) a = b * 2 ^ k + a.
Proof.
  intros Hk Ha. pose proof (land_shift_0 a b k Hk Ha) as H.
  rewrite (Z.add_nocarry_lxor _ _ H).
  apply Z.bits_inj'. intros n Hn. rewrite Z.lxor_spec, Z.lor_spec.
  apply (f_equal (fun z => Z.testbit z n)) in H. rewrite Z.land_spec, Z.bits_0 in H.
  destruct (Z.testbit (b * 2 ^ k) n), (Z.testbit a n); try reflexivity. discriminate.
Qed.

Lemma lxor_add a b k : 0 <= k -> 0 <= a < 2 ^ k -> Z.lxor (b * 2 ^ k) a = b * 2 ^ k + a.
Proof.
  intros Hk Ha. symmetry. apply Z.add_nocarry_lxor. apply land_shift_0; auto.
Qed.

Lemma land_mask a k : 0 <= k -> Z.land a (2 ^ k - 1) = a mod 2 ^ k.
Proof. intros. rewrite <- Z.land_ones by auto. rewrite Z.ones_equiv. f_equal. Qed.

Lemma lxor_ones a k : 0 <= k -> 0 <= a < 2 ^ k -> Z.lxor a (2 ^ k - 1) = 2 ^ k - 1 - a.
Proof.
  intros Hk Ha.
  assert (H : Z.lxor a (2 ^ k - 1) + a = 2 ^ k - 1).
  { rewrite Z.add_nocarry_lxor.
    - rewrite Z.lxor_comm, <- Z.lxor_assoc, Z.lxor_nilpotent, Z.lxor_0_l. reflexivity.
    - apply Z.bits_inj'. intros n Hn. rewrite Z.land_spec, Z.lxor_spec, Z.bits_0.
      replace (2 ^ k - 1) with (Z.ones k) by (rewrite Z.ones_equiv; lia).
      destruct (Z.ltb_spec n k).
      + rewrite Z.ones_spec_low by lia. destruct (Z.testbit a n); reflexivity.
      + rewrite (testbit_high a k n) by lia. apply Bool.andb_false_r. }
  lia.
Qed.

Lemma lor_bound a b k : 0 <= k -> 0 <= a < 2 ^ k -> 0 <= b < 2 ^ k -> 0 <= Z.lor a b < 2 ^ k.
Proof.
  intros Hk Ha Hb. split; [apply Z.lor_nonneg; lia|].
  destruct (Z.eq_dec (Z.lor a b) 0) as [->|Hz]; [lia|].
  apply Z.log2_lt_pow2; [assert (0 <= Z.lor a b) by (apply Z.lor_nonneg; lia); lia|].
  rewrite Z.log2_lor by lia.
  assert (Hl : forall x, 0 <= x < 2 ^ k -> x <> 0 -> Z.log2 x < k) by (intros; apply Z.log2_lt_pow2; lia).
  destruct (Z.eq_dec a 0) as [->|]; destruct (Z.eq_dec b 0) as [->|].
  - exfalso. apply Hz. reflexivity.
  - specialize (Hl b Hb n). pose proof (Z.log2_nonneg b). change (Z.log2 0) with 0. lia.
  - specialize (Hl a Ha n). pose proof (Z.log2_nonneg a). change (Z.log2 0) with 0. lia.
  - pose proof (Hl a Ha n). pose proof (Hl b Hb n0). lia.
Qed.

Lemma land_bound a b k : 0 <= k -> 0 <= a < 2 ^ k -> 0 <= b -> 0 <= Z.land a b < 2 ^ k.
Proof.
  intros Hk Ha Hb. split; [apply Z.land_nonneg; lia|].
  apply Z.le_lt_trans with a; [|lia].
  assert (Hd : Z.ldiff a b + Z.land a b = a).
  { rewrite Z.add_nocarry_lxor.
    - apply Z.bits_inj'. intros n Hn. rewrite Z.lxor_spec, Z.ldiff_spec, Z.land_spec.
      destruct (Z.testbit a n), (Z.testbit b n); reflexivity.
    - apply Z.bits_inj'. intros n Hn. rewrite !Z.land_spec, Z.ldiff_spec, Z.bits_0.
      destruct (Z.testbit a n), (Z.testbit b n); reflexivity. }
  assert (0 <= Z.ldiff a b) by (apply Z.ldiff_nonneg; lia). lia.
Qed.

Lemma lxor_bound a b k : 0 <= k -> 0 <= a < 2 ^ k -> 0 <= b < 2 ^ k -> 0 <= Z.lxor a b < 2 ^ k.
Proof.
  intros Hk Ha Hb. split; [apply Z.lxor_nonneg; lia|].
  apply Z.le_lt_trans with (Z.lor a b); [|apply (lor_bound a b k); auto].
  assert (Hd : Z.lxor a b + Z.land a b = Z.lor a b).
  { rewrite Z.add_nocarry_lxor.
    - apply Z.bits_inj'. intros n Hn. rewrite !Z.lxor_spec, Z.lor_spec, Z.land_spec.
      destruct (Z.testbit a n), (Z.testbit b n); reflexivity.
    - apply Z.bits_inj'. intros n Hn. rewrite !Z.land_spec, Z.lxor_spec, Z.bits_0.
      destruct (Z.testbit a n), (Z.testbit b n); reflexivity. }
  assert (0 <= Z.land a b) by (apply Z.land_nonneg; lia). lia.
Qed.

Lemma testbit_split al ah k n : 0 <= k -> 0 <= al < 2 ^ k -> 0 <= n ->
  Z.testbit (al + 2 ^ k * ah) n = if n <? k then Z.testbit al n else Z.testbit ah (n - k).
Proof.
  intros Hk Ha Hn. rewrite Z.mul_comm, Z.add_comm.
  rewrite <- lor_add, Z.lor_spec by auto. destruct (Z.ltb_spec n k).
  - rewrite Z.mul_pow2_bits_low by lia. reflexivity.
  - rewrite (testbit_high al k n) by lia.
    rewrite Z.mul_pow2_bits by lia. apply Bool.orb_false_r.
Qed.

Section Split.
  Variable op : Z -> Z -> Z.
  Variable bop : bool -> bool -> bool.
  Hypothesis spec : forall a b n, Z.testbit (op a b) n = bop (Z.testbit a n) (Z.testbit b n).
  Hypothesis bound : forall a b k, 0 <= k -> 0 <= a < 2 ^ k -> 0 <= b < 2 ^ k -> 0 <= op a b < 2 ^ k.
  Lemma op_split al ah bl bh k : 0 <= k -> 0 <= al < 2 ^ k -> 0 <= bl < 2 ^ k ->
    op (al + 2 ^ k * ah) (bl + 2 ^ k * bh) = op al bl + 2 ^ k * op ah bh.
  Proof.
    intros Hk Ha Hb. apply Z.bits_inj'. intros n Hn.
    rewrite spec, !testbit_split by auto.
    destruct (n <? k); rewrite spec; reflexivity.
  Qed.
End Split.

Lemma land_split al ah bl bh k : 0 <= k -> 0 <= al < 2 ^ k -> 0 <= bl < 2 ^ k ->
  Z.land (al + 2 ^ k * ah) (bl + 2 ^ k * bh) = Z.land al bl + 2 ^ k * Z.land ah bh.
Proof.
  apply (op_split Z.land andb); [intros; apply Z.land_spec|].
  intros; apply land_bound; lia.
Qed.
Lemma lor_split al ah bl bh k : 0 <= k -> 0 <= al < 2 ^ k -> 0 <= bl < 2 ^ k ->
  Z.lor (al + 2 ^ k * ah) (bl + 2 ^ k * bh) = Z.lor al bl + 2 ^ k * Z.lor ah bh.
Proof. apply (op_split Z.lor orb); [intros; apply Z.lor_spec|]. intros; apply lor_bound; lia. Qed.
Lemma lxor_split al ah bl bh k : 0 <= k -> 0 <= al < 2 ^ k -> 0 <= bl < 2 ^ k ->
  Z.lxor (al + 2 ^ k * ah) (bl + 2 ^ k * bh) = Z.lxor al bl + 2 ^ k * Z.lxor ah bh.
Proof. apply (op_split Z.lxor xorb); [intros; apply Z.lxor_spec|]. intros; apply lxor_bound; lia. Qed.

Lemma lor_eqb0 a b : (Z.lor a b =? 0) = ((a =? 0) && (b =? 0))%bool.
Proof.
  destruct (Z.eqb_spec (Z.lor a b) 0) as [H|H].
  - apply Z.lor_eq_0_iff in H as [-> ->]. reflexivity.
  - destruct (Z.eqb_spec a 0) as [->|]; [|reflexivity].
    destruct (Z.eqb_spec b 0) as [->|]; [|reflexivity]. exfalso; apply H; reflexivity.
Qed.

Lemma lxor_eqb0 a b : (Z.lxor a b =? 0) = (a =? b).
Proof.
  destruct (Z.eqb_spec (Z.lxor a b) 0) as [H|H].
  - apply Z.lxor_eq in H as ->. symmetry. apply Z.eqb_refl.
  - destruct (Z.eqb_spec a b) as [->|]; [|reflexivity]. exfalso; apply H, Z.lxor_nilpotent.
Qed.
