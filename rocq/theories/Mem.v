(** * Facts about linear memory (proof support), and the predicate [holds]. *)
From Coq Require Import ZArith String List Bool Lia.
Import ListNotations.
From Verif Require Import Wasm Std StdEnv Spec.
Open Scope Z_scope.

Lemma rd_range m a : 0 <= rd m a < 256.
Proof. apply Z.mod_pos_bound. lia. Qed.

Lemma length_bytes_at m a n : length (bytes_at m a n) = n.
Proof. revert a. induction n; simpl; auto. Qed.

Lemma bytes_at_app m a n k : bytes_at m a (n + k) = bytes_at m a n ++ bytes_at m (a + Z.of_nat n) k.
Proof.
  revert a. induction n as [|n IH]; intros a.
  - simpl. replace (a + 0) with a by lia. reflexivity.
  - cbn [plus bytes_at app]. rewrite IH. do 3 f_equal. lia.
Qed.

Lemma nth_bytes_at m a n i : (i < n)%nat -> nth i (bytes_at m a n) 0 = rd m (a + Z.of_nat i).
Proof.
  revert a i. induction n as [|n IH]; intros a i H; [lia|].
  destruct i as [|i]; cbn [bytes_at nth].
  - f_equal. lia.
  - rewrite IH by lia. f_equal. lia.
Qed.

Lemma bytes_at_ext m m' a n :
  (forall x, a <= x < a + Z.of_nat n -> rd m x = rd m' x) -> bytes_at m a n = bytes_at m' a n.
Proof.
  revert a. induction n as [|n IH]; intros a H; [reflexivity|].
  cbn [bytes_at]. f_equal; [apply H; lia|]. apply IH. intros; apply H; lia.
Qed.

Lemma holds_byte m a bs : holds m a bs -> Forall (fun b => 0 <= b < 256) bs.
Proof.
  intros (_ & _ & <-). generalize (length bs) as n. intros n. revert a.
  induction n; intros; simpl; constructor; auto using rd_range.
Qed.

Lemma holds_cons m a x xs : holds m a (x :: xs) ->
  rd m a = x /\ 0 <= x < 256 /\ 0 <= a /\ a + 1 <= msize m /\ a + 1 <= m32 /\ holds m (a + 1) xs.
Proof.
  intros (H1 & H2 & H3). cbn [length bytes_at] in *. injection H3 as H3 H4.
  rewrite Nat2Z.inj_succ in H2. repeat split; auto; try lia.
  all: rewrite <- H3; apply rd_range.
Qed.

Lemma holds_nil m a : 0 <= a <= msize m -> msize m <= m32 -> holds m a [].
Proof. repeat split; simpl; try lia. Qed.

Lemma holds_intro m a n : 0 <= a -> a + Z.of_nat n <= msize m -> msize m <= m32 -> holds m a (bytes_at m a n).
Proof. intros. split; [auto|]. rewrite length_bytes_at. auto. Qed.

Lemma app_inj_len {A} (a b c d : list A) : length a = length c -> a ++ b = c ++ d -> a = c /\ b = d.
Proof.
  revert c. induction a as [|x a IH]; intros [|y c] H H0; simpl in *; try discriminate; [auto|].
  injection H0 as -> H0. injection H as H. destruct (IH _ H H0); subst; auto.
Qed.

Lemma holds_app m a xs ys : holds m a (xs ++ ys) <-> holds m a xs /\ holds m (a + Z.of_nat (length xs)) ys.
Proof.
  unfold holds. rewrite app_length, bytes_at_app, Nat2Z.inj_add. split.
  - intros (H1 & H2 & H3). apply app_inj_len in H3; [|apply length_bytes_at]. destruct H3. repeat split; auto; lia.
  - intros ((H1 & H2 & H3) & (H4 & H5 & H6)). rewrite H3, H6. repeat split; auto; lia.
Qed.

Lemma rd_upd m a v x : rd (upd m a v) x = if x =? a then v mod 256 else rd m x.
Proof. unfold rd, upd; simpl. destruct (x =? a); [apply Z.mod_mod; lia|reflexivity]. Qed.

Lemma msize_upd m a v : msize (upd m a v) = msize m.
Proof. reflexivity. Qed.
Lemma msize_stn n : forall m a v, msize (stn m a n v) = msize m.
Proof. induction n; intros; simpl; [reflexivity|]. rewrite IHn. reflexivity. Qed.
Lemma msize_mcopy m d s n : msize (mcopy m d s n) = msize m.
Proof. reflexivity. Qed.
Lemma msize_mfill m d v n : msize (mfill m d v n) = msize m.
Proof. reflexivity. Qed.

Lemma rd_stn n : forall m a v x,
  rd (stn m a n v) x = if (a <=? x) && (x <? a + Z.of_nat n) then (v / 256 ^ (x - a)) mod 256 else rd m x.
Proof.
  induction n as [|n IH]; intros m a v x.
  - simpl. destruct (Z.leb_spec a x), (Z.ltb_spec x (a + 0)); simpl; try reflexivity; lia.
  - cbn [stn]. rewrite IH, rd_upd, Nat2Z.inj_succ.
    destruct (Z.eqb_spec x a) as [->|Hn].
    + replace (a - a) with 0 by lia. rewrite Z.pow_0_r, Z.div_1_r.
      destruct (Z.leb_spec (a + 1) a), (Z.leb_spec a a), (Z.ltb_spec a (a + Z.succ (Z.of_nat n))); simpl; try lia; reflexivity.
    + destruct (Z.leb_spec (a + 1) x), (Z.leb_spec a x), (Z.ltb_spec x (a + 1 + Z.of_nat n)),
        (Z.ltb_spec x (a + Z.succ (Z.of_nat n))); simpl; try reflexivity; try lia.
      rewrite Z.div_div by (try apply Z.pow_pos_nonneg; lia). do 2 f_equal.
      replace (x - a) with (1 + (x - (a + 1))) by lia. rewrite Z.pow_add_r by lia. reflexivity.
Qed.

Lemma rd_mcopy m d s n x :
  rd (mcopy m d s n) x = if (d <=? x) && (x <? d + n) then rd m (x - d + s) else rd m x.
Proof. unfold rd, mcopy; simpl. destruct (_ && _); reflexivity. Qed.

Lemma rd_mfill m d v n x :
  rd (mfill m d v n) x = if (d <=? x) && (x <? d + n) then v mod 256 else rd m x.
Proof. unfold rd, mfill; simpl. destruct (_ && _); [apply Z.mod_mod; lia|reflexivity]. Qed.

(** a little-endian word and its bytes *)
Fixpoint le_val (bs : list Z) : Z :=
  match bs with [] => 0 | b :: bs => b + 256 * le_val bs end.

Lemma ldn_le m a n : ldn m a n = le_val (bytes_at m a n).
Proof. revert a. induction n; intros; simpl; [reflexivity|]. rewrite IHn. reflexivity. Qed.

Lemma le_val_bound bs : Forall (fun b => 0 <= b < 256) bs -> 0 <= le_val bs < 256 ^ Z.of_nat (length bs).
Proof.
  induction 1 as [|b bs Hb _ IH]; [simpl; lia|].
  cbn [le_val length]. rewrite Nat2Z.inj_succ, Z.pow_succ_r by lia. nia.
Qed.

Lemma bytes_at_byte m a n : Forall (fun b => 0 <= b < 256) (bytes_at m a n).
Proof. revert a. induction n; intros; simpl; constructor; auto using rd_range. Qed.

Lemma ldn_bound m a n : 0 <= ldn m a n < 256 ^ Z.of_nat n.
Proof.
  rewrite ldn_le. pose proof (le_val_bound _ (bytes_at_byte m a n)) as H.
  rewrite length_bytes_at in H. exact H.
Qed.

Lemma ldn_ext m m' a n :
  (forall x, a <= x < a + Z.of_nat n -> rd m x = rd m' x) -> ldn m a n = ldn m' a n.
Proof. intros. rewrite !ldn_le. f_equal. apply bytes_at_ext; auto. Qed.

Lemma ldn_app m a n k : ldn m a (n + k) = ldn m a n + 256 ^ Z.of_nat n * ldn m (a + Z.of_nat n) k.
Proof.
  revert a. induction n as [|n IH]; intros a.
  - simpl. replace (a + 0) with a by lia. destruct (ldn m a k); reflexivity.
  - cbn [plus ldn]. rewrite IH, Nat2Z.inj_succ, Z.pow_succ_r by lia.
    replace (a + 1 + Z.of_nat n) with (a + Z.succ (Z.of_nat n)) by lia. ring.
Qed.

(** loading what was just stored *)
Lemma ldn_digits m a n v :
  (forall i, 0 <= i < Z.of_nat n -> rd m (a + i) = (v / 256 ^ i) mod 256) ->
  ldn m a n = v mod 256 ^ Z.of_nat n.
Proof.
  revert a v. induction n as [|n IH]; intros a v H.
  - simpl. rewrite Z.mod_1_r. reflexivity.
  - cbn [ldn]. rewrite (IH (a + 1) (v / 256)).
    + specialize (H 0 ltac:(lia)). rewrite Z.pow_0_r, Z.div_1_r, Z.add_0_r in H. rewrite H.
      rewrite Nat2Z.inj_succ, Z.pow_succ_r by lia.
      rewrite Z.rem_mul_r by (try apply Z.pow_pos_nonneg; lia). lia.
    + intros i Hi. replace (a + 1 + i) with (a + (1 + i)) by lia. rewrite H by lia.
      rewrite Z.pow_add_r, Z.div_div by (try apply Z.pow_pos_nonneg; lia). reflexivity.
Qed.

Lemma ldn_stn_same m a n v : ldn (stn m a n v) a n = v mod 256 ^ Z.of_nat n.
Proof.
  apply ldn_digits. intros i Hi. rewrite rd_stn.
  destruct (Z.leb_spec a (a + i)), (Z.ltb_spec (a + i) (a + Z.of_nat n)); try lia. simpl.
  do 3 f_equal. lia.
Qed.

Lemma ldn_stn_other m a n v b k :
  b + Z.of_nat k <= a \/ a + Z.of_nat n <= b -> ldn (stn m a n v) b k = ldn m b k.
Proof.
  intros H. apply ldn_ext. intros x Hx. rewrite rd_stn.
  destruct (Z.leb_spec a x), (Z.ltb_spec x (a + Z.of_nat n)); simpl; try reflexivity; lia.
Qed.
