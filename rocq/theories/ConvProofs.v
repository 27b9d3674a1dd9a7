(** * Proofs about buffer-to-integer conversions. *)
From Coq Require Import ZArith String List Bool Lia.
Import ListNotations.
From Verif Require Import Wasm Std StdEnv WasmLogic WasmTac Spec SpecBytes ZBits Mem ArithProofs BitProofs.
Open Scope Z_scope.

Lemma le_value_eq bs : le_value bs = le_val bs.
Proof. induction bs; simpl; [reflexivity|]. rewrite <- IHbs. reflexivity. Qed.

Lemma be_acc bs : forall n, fold_left (fun n b => 256 * n + b) bs n = n * 256 ^ Z.of_nat (length bs) + be_value bs.
Proof.
  unfold be_value. induction bs as [|b bs IH]; intros n.
  - simpl. lia.
  - cbn [fold_left length]. rewrite (IH (256 * n + b)), (IH (256 * 0 + b)), Nat2Z.inj_succ, Z.pow_succ_r by lia. ring.
Qed.

Lemma be_value_app xs ys : be_value (xs ++ ys) = be_value xs * 256 ^ Z.of_nat (length ys) + be_value ys.
Proof. unfold be_value at 1. rewrite fold_left_app, be_acc. reflexivity. Qed.

Lemma be_value_cons x ys : be_value (x :: ys) = x * 256 ^ Z.of_nat (length ys) + be_value ys.
Proof. change (x :: ys) with ([x] ++ ys). rewrite be_value_app. f_equal. Qed.

Lemma be_value_bound bs : Forall (fun b => 0 <= b < 256) bs -> 0 <= be_value bs < 256 ^ Z.of_nat (length bs).
Proof.
  induction 1 as [|b bs Hb _ IH]; [unfold be_value; simpl; lia|].
  rewrite be_value_cons. cbn [length]. rewrite Nat2Z.inj_succ, Z.pow_succ_r by lia. nia.
Qed.

Lemma vbyte_ldn n : forall m a i, 0 <= i < Z.of_nat n -> vbyte (ldn m a n) i = rd m (a + i).
Proof.
  unfold vbyte. induction n as [|n IH]; intros m a i Hi; [lia|].
  cbn [ldn]. destruct (Z.eq_dec i 0) as [->|Hn].
  - rewrite Z.mul_0_r, Z.pow_0_r, Z.div_1_r, Z.add_0_r.
    replace (rd m a + 256 * ldn m (a + 1) n) with (rd m a + ldn m (a + 1) n * 256) by ring.
    rewrite Z.mod_add by lia. apply Z.mod_small. apply rd_range.
  - replace (8 * i) with (8 + 8 * (i - 1)) by lia.
    rewrite Z.pow_add_r by lia. change (2 ^ 8) with 256.
    rewrite <- Z.div_div by (try apply Z.pow_pos_nonneg; lia).
    replace (rd m a + 256 * ldn m (a + 1) n) with (ldn m (a + 1) n * 256 + rd m a) by ring.
    rewrite Z.div_add_l by lia.
    rewrite (Z.div_small (rd m a)) by apply rd_range. rewrite Z.add_0_r, IH by lia. f_equal. lia.
Qed.

Lemma swap_lanes m p :
  swizzle (ldn m p 16) 10680758337341567148842519922299176455 =
  be_value (bytes_at m p 8) + m64 * be_value (bytes_at m (p + 8) 8).
Proof.
  unfold swizzle.
  transitivity (vjoin 16 (fun i => rd m (p + (if i <? 8 then 7 - i else 23 - i))) 0).
  - assert (H : forall n f g i, (forall j, 0 <= j < Z.of_nat n -> f (i + j) = g (i + j)) -> vjoin n f i = vjoin n g i).
    { induction n as [|n IH]; intros f g i H; [reflexivity|]. cbn [vjoin]. f_equal.
      - specialize (H 0). rewrite Z.add_0_r in H. apply H. lia.
      - f_equal. apply IH. intros j Hj. replace (i + 1 + j) with (i + (1 + j)) by lia. apply H. lia. }
    apply H. intros j Hj. rewrite Z.add_0_l. change (Z.of_nat 16) with 16 in Hj.
    assert (Hb : vbyte 10680758337341567148842519922299176455 j = if j <? 8 then 7 - j else 23 - j).
    { assert (HC : j = 0 \/ j = 1 \/ j = 2 \/ j = 3 \/ j = 4 \/ j = 5 \/ j = 6 \/ j = 7 \/ j = 8 \/ j = 9 \/ j = 10 \/ j = 11 \/ j = 12 \/ j = 13 \/ j = 14 \/ j = 15) by lia.
      repeat destruct HC as [->|HC]; try reflexivity. subst; reflexivity. }
    rewrite Hb. destruct (Z.ltb_spec j 8).
    + destruct (Z.ltb_spec (7 - j) 16); [|lia]. apply vbyte_ldn. lia.
    + destruct (Z.ltb_spec (23 - j) 16); [|lia]. apply vbyte_ldn. lia.
  - cbn [vjoin bytes_at be_value fold_left].
    unfold be_value. cbn [fold_left].
    repeat match goal with |- context [if ?i <? 8 then ?a else ?b] =>
      let v := eval vm_compute in (if i <? 8 then a else b) in change (if i <? 8 then a else b) with v end.
    rewrite <- !Z.add_assoc. cbn [Z.add Pos.add Pos.succ Pos.add_carry]. rewrite !Z.add_0_r. ring.
Qed.

Lemma land_mask x k : 0 <= k -> Z.land x (2 ^ k - 1) = x mod 2 ^ k.
Proof. intros. rewrite <- Z.land_ones by lia. f_equal. rewrite Z.ones_equiv. lia. Qed.

Lemma ldn_mod m a k j : ldn m a (k + j) mod 256 ^ Z.of_nat k = ldn m a k.
Proof.
  rewrite ldn_app, Z.mul_comm, Z.mod_add.
  - apply Z.mod_small. apply ldn_bound.
  - apply Z.pow_nonzero; lia.
Qed.

Lemma be_mod m a k j : be_value (bytes_at m a (j + k)) mod 256 ^ Z.of_nat k = be_value (bytes_at m (a + Z.of_nat j) k).
Proof.
  rewrite bytes_at_app, be_value_app, length_bytes_at, Z.add_comm, Z.mod_add by (apply Z.pow_nonzero; lia).
  apply Z.mod_small. pose proof (be_value_bound _ (bytes_at_byte m (a + Z.of_nat j) k)) as H.
  rewrite length_bytes_at in H. exact H.
Qed.

(** masks selecting the bytes of a buffer of [n] bytes in the two limbs *)
Definition mlo (n : Z) : Z := 256 ^ Z.min n 8 - 1.
Definition mhi (n : Z) : Z := 256 ^ Z.max 0 (n - 8) - 1.
Lemma masks n : 1 <= n <= 16 ->
  let s := m64 - 1 in
  let h := s / 2 ^ (Z.land ((n * 56) mod m32) 56 mod 64) in
  (if b2z (8 <=? n) =? 0 then h else s) = mlo n /\ (if b2z (8 <? n) =? 0 then 0 else h) = mhi n.
Proof.
  intros H. assert (HC : n = 1 \/ n = 2 \/ n = 3 \/ n = 4 \/ n = 5 \/ n = 6 \/ n = 7 \/ n = 8 \/ n = 9 \/ n = 10 \/ n = 11 \/ n = 12 \/ n = 13 \/ n = 14 \/ n = 15 \/ n = 16) by lia.
  repeat destruct HC as [->|HC]; try (split; reflexivity). subst; split; reflexivity.
Qed.

Section Conv.
Context {HS : Type} (E : env HS) (HE : has_std E).
Implicit Types (st : store HS) (R : result HS -> Prop).
Ltac wfin := unfold qcall, qblock, qfunc; wcbn.

Lemma land_mlo x n : Z.land x (mlo n) = x mod 256 ^ Z.min n 8 \/ n < 0.
Proof.
  destruct (Z.lt_ge_cases n 0); [auto|left]. unfold mlo. change 256 with (2 ^ 8).
  rewrite <- Z.pow_mul_r by lia. apply land_mask. lia.
Qed.
Lemma land_mhi x n : Z.land x (mhi n) = x mod 256 ^ Z.max 0 (n - 8).
Proof.
  unfold mhi. change 256 with (2 ^ 8). rewrite <- Z.pow_mul_r by lia. apply land_mask. lia.
Qed.

Lemma u128_limbs lo hi : lim lo -> u128 (lo + m64 * hi) = [VI64 lo; VI64 hi].
Proof. unfold lim, u128. rewrite pow64. intros. do 2 f_equal; [|f_equal]; f_equal; zlia. Qed.

Lemma mod_eq_n m a (N k j : nat) (K : Z) : N = (k + j)%nat -> K = Z.of_nat k -> ldn m a N mod 256 ^ K = ldn m a k.
Proof. intros -> ->. apply ldn_mod. Qed.
Lemma be_mod_n m a b (N k j : nat) (K : Z) : N = (j + k)%nat -> K = Z.of_nat k -> b = a + Z.of_nat j ->
  be_value (bytes_at m a N) mod 256 ^ K = be_value (bytes_at m b k).
Proof. intros -> -> ->. apply be_mod. Qed.

Lemma le_limbs m a (N : nat) : (1 <= N <= 16)%nat ->
  u128 (ldn m a N) = [VI64 (Z.land (ldn m a 8) (mlo (Z.of_nat N))); VI64 (Z.land (ldn m (a + 8) 8) (mhi (Z.of_nat N)))].
Proof.
  intros HN. destruct (land_mlo (ldn m a 8) (Z.of_nat N)) as [->|]; [|lia]. rewrite land_mhi.
  pose proof (ldn_bound m a 8) as B8. change (256 ^ Z.of_nat 8) with m64 in B8.
  destruct (Nat.le_gt_cases N 8) as [Hle|Hgt].
  - rewrite (mod_eq_n m a 8 N (8 - N)) by lia.
    rewrite (mod_eq_n m (a + 8) 8 0 8) by lia. cbn [ldn].
    rewrite <- (u128_limbs (ldn m a N) 0); [f_equal; lia|].
    pose proof (ldn_bound m a N). assert (256 ^ Z.of_nat N <= 256 ^ 8) by (apply Z.pow_le_mono_r; lia).
    unfold lim. change (256 ^ 8) with m64 in *. lia.
  - rewrite (mod_eq_n m a 8 8 0) by lia. rewrite (mod_eq_n m (a + 8) 8 (N - 8) (16 - N)) by lia.
    rewrite <- u128_limbs by (unfold lim; lia). f_equal.
    replace N with (8 + (N - 8))%nat at 1 by lia. rewrite ldn_app. change (256 ^ Z.of_nat 8) with m64.
    change (Z.of_nat 8) with 8. ring.
Qed.

Lemma be_limbs m a (N : nat) : (1 <= N <= 16)%nat ->
  let p := a + Z.of_nat N - 16 in
  u128 (be_value (bytes_at m a N)) =
  [VI64 (Z.land (be_value (bytes_at m (p + 8) 8)) (mlo (Z.of_nat N))); VI64 (Z.land (be_value (bytes_at m p 8)) (mhi (Z.of_nat N)))].
Proof.
  intros HN p. destruct (land_mlo (be_value (bytes_at m (p + 8) 8)) (Z.of_nat N)) as [->|]; [|lia]. rewrite land_mhi.
  pose proof (be_value_bound _ (bytes_at_byte m (p + 8) 8)) as B8. rewrite length_bytes_at in B8. change (256 ^ Z.of_nat 8) with m64 in B8.
  destruct (Nat.le_gt_cases N 8) as [Hle|Hgt].
  - rewrite (be_mod_n m (p + 8) a 8 N (8 - N)) by lia.
    rewrite (be_mod_n m p (p + 8) 8 0 8) by lia. cbn [bytes_at]. change (be_value []) with 0.
    rewrite <- (u128_limbs (be_value (bytes_at m a N)) 0); [f_equal; lia|].
    pose proof (be_value_bound _ (bytes_at_byte m a N)) as B. rewrite length_bytes_at in B.
    assert (256 ^ Z.of_nat N <= 256 ^ 8) by (apply Z.pow_le_mono_r; lia).
    unfold lim. change (256 ^ 8) with m64 in *. lia.
  - rewrite (be_mod_n m (p + 8) (p + 8) 8 8 0) by lia. rewrite (be_mod_n m p a 8 (N - 8) (16 - N)) by lia.
    rewrite <- u128_limbs by (unfold lim; lia). f_equal.
    replace N with ((N - 8) + 8)%nat at 1 by lia. rewrite bytes_at_app, be_value_app, length_bytes_at.
    change (256 ^ Z.of_nat 8) with m64.
    replace (a + Z.of_nat (N - 8)) with (p + 8) by lia. ring.
Qed.

Lemma buff_to_uint_le_wp a bs st R :
  holds (smem st) a bs -> (16 < length bs)%nat \/ length bs = 0%nat \/ a + 16 <= msize (smem st) ->
  R (if Z.of_nat (length bs) <=? 16 then RVals (u128 (le_value bs)) st else err 5 st) ->
  wpf E "stdlib.buff-to-uint-le" [VI32 a; vlen bs] st R.
Proof.
  intros HB HO H. wenter HE. unfold vlen. set (n := Z.of_nat (length bs)) in *.
  wpure. wif Hc.
  { wpure. wcall HE. apply runtime_error_wp; auto. wfin. destruct (Z.leb_spec n 16); [lia|exact H]. }
  wnil. rewrite (proj2 (Z.leb_le n 16)) in H by lia. wpure.
  apply wp_if_bool; intros Hz; wcbn.
  { wpure. wret. assert (bs = []) as -> by (destruct bs; [reflexivity|subst n; cbn [length] in *; lia]). exact H. }
  wnil. wpure. assert (Hn : 1 <= n <= 16) by lia.
  destruct (masks n Hn) as [M1 M2].
  cbv zeta in M1, M2. change (m64 - 1) with 18446744073709551615 in M1, M2.
  rewrite M1, M2. destruct HB as (B1 & B2 & B3).
  apply wp_load; [cbn; lia|]. wpure. apply wp_load; [cbn; lia|]. wpure. wnil.
  rewrite le_value_eq, <- B3, <- ldn_le, le_limbs in H by lia.
  rewrite Z.add_0_r. exact H.
Qed.

Lemma buff_to_uint_be_wp a bs st R :
  holds (smem st) a bs -> (16 < length bs)%nat \/ length bs = 0%nat \/ 16 <= a + Z.of_nat (length bs) ->
  R (if Z.of_nat (length bs) <=? 16 then RVals (u128 (be_value bs)) st else err 5 st) ->
  wpf E "stdlib.buff-to-uint-be" [VI32 a; vlen bs] st R.
Proof.
  intros HB HO H. wenter HE. unfold vlen. set (n := Z.of_nat (length bs)) in *.
  wpure. wif Hc.
  { wpure. wcall HE. apply runtime_error_wp; auto. wfin. destruct (Z.leb_spec n 16); [lia|exact H]. }
  wnil. rewrite (proj2 (Z.leb_le n 16)) in H by lia. wpure.
  apply wp_if_bool; intros Hz; wcbn.
  { wpure. wret. assert (bs = []) as -> by (destruct bs; [reflexivity|subst n; cbn [length] in *; lia]). exact H. }
  wnil. wpure. assert (Hn : 1 <= n <= 16) by lia.
  destruct (masks n Hn) as [M1 M2].
  cbv zeta in M1, M2. change (m64 - 1) with 18446744073709551615 in M1, M2.
  rewrite M1, M2. destruct HB as (B1 & B2 & B3).
  assert (P : ((a + n) mod m32 - 16) mod m32 = a + n - 16) by zlia.
  rewrite P. apply wp_load; [cbn; lia|]. wpure. wnil.
  rewrite Z.add_0_r. cbn [ldbytes]. rewrite swap_lanes.
  rewrite <- B3 in H. rewrite be_limbs in H by lia. fold n in H. cbv zeta in H.
  pose proof (be_value_bound _ (bytes_at_byte (smem st) (a + n - 16) 8)) as Q1.
  pose proof (be_value_bound _ (bytes_at_byte (smem st) (a + n - 16 + 8) 8)) as Q2.
  rewrite length_bytes_at in Q1, Q2. change (256 ^ Z.of_nat 8) with m64 in Q1, Q2.
  rconv H; f_equal; clear - Q1 Q2.
  - change (2 ^ (64 * 1)) with m64. zlia.
  - change (2 ^ (64 * 0)) with 1. zlia.
Qed.
End Conv.
