(** * Fixed-width little- and big-endian encodings of integers as bytes. *)
From Coq Require Import ZArith List Lia.
Import ListNotations.
From Verif Require Import Wasm StdEnv Spec Mem MemFacts.
Open Scope Z_scope.

(** [le_bytes n z]: the [n] low bytes of [z], least significant first *)
Fixpoint le_bytes (n : nat) (z : Z) : list Z :=
  match n with O => [] | S n => z mod 256 :: le_bytes n (z / 256) end.
Definition be_bytes (n : nat) (z : Z) : list Z := rev (le_bytes n z).

Lemma len_le_bytes n : forall z, length (le_bytes n z) = n.
Proof. induction n; intros; cbn [le_bytes length]; auto. Qed.
Lemma len_be_bytes n z : length (be_bytes n z) = n.
Proof. unfold be_bytes. rewrite rev_length. apply len_le_bytes. Qed.
Lemma le_bytes_byte n : forall z, Forall (fun b => 0 <= b < 256) (le_bytes n z).
Proof. induction n; intros; cbn [le_bytes]; constructor; auto. apply Z.mod_pos_bound. lia. Qed.
Lemma be_bytes_byte n z : Forall (fun b => 0 <= b < 256) (be_bytes n z).
Proof. unfold be_bytes. apply Forall_rev, le_bytes_byte. Qed.

Lemma le_val_le_bytes n : forall z, le_val (le_bytes n z) = z mod 256 ^ Z.of_nat n.
Proof.
  induction n; intros z; cbn [le_bytes le_val]. { cbn. rewrite Z.mod_1_r. reflexivity. }
  rewrite IHn, Nat2Z.inj_succ, Z.pow_succ_r by lia.
  rewrite (Z.rem_mul_r z 256 (256 ^ Z.of_nat n)); [lia|lia|apply Z.pow_pos_nonneg; lia].
Qed.
Lemma le_bytes_mod n : forall z, le_bytes n (z mod 256 ^ Z.of_nat n) = le_bytes n z.
Proof.
  induction n; intros z; cbn [le_bytes]; [reflexivity|].
  rewrite Nat2Z.inj_succ, Z.pow_succ_r by lia. assert (0 < 256 ^ Z.of_nat n) by (apply Z.pow_pos_nonneg; lia).
  rewrite (Z.rem_mul_r z 256 (256 ^ Z.of_nat n)) by lia. f_equal.
  - rewrite Z.mul_comm, Z.mod_add by lia. apply Z.mod_mod; lia.
  - rewrite Z.mul_comm, Z.div_add by lia. rewrite (Z.div_small (z mod 256)) by (apply Z.mod_pos_bound; lia).
    rewrite Z.add_0_l. apply IHn.
Qed.
Lemma le_bytes_inj n z z' : 0 <= z < 256 ^ Z.of_nat n -> 0 <= z' < 256 ^ Z.of_nat n -> le_bytes n z = le_bytes n z' -> z = z'.
Proof.
  intros H H' He. apply (f_equal le_val) in He. rewrite !le_val_le_bytes, !Z.mod_small in He; auto.
Qed.
Lemma be_bytes_inj n z z' : 0 <= z < 256 ^ Z.of_nat n -> 0 <= z' < 256 ^ Z.of_nat n -> be_bytes n z = be_bytes n z' -> z = z'.
Proof.
  intros H H' He. unfold be_bytes in He. apply (f_equal (@rev Z)) in He. rewrite !rev_involutive in He.
  eapply le_bytes_inj; eauto.
Qed.
Lemma le_bytes_app n k : forall z, le_bytes (n + k) z = le_bytes n z ++ le_bytes k (z / 256 ^ Z.of_nat n).
Proof.
  induction n; intros z; cbn [le_bytes Nat.add app].
  - change (256 ^ Z.of_nat 0) with 1. rewrite Z.div_1_r. reflexivity.
  - rewrite IHn. rewrite Nat2Z.inj_succ, Z.pow_succ_r by lia.
    rewrite Z.div_div by (try lia; apply Z.pow_pos_nonneg; lia). reflexivity.
Qed.

Lemma bytes_at_stn_le m a n : forall v, bytes_at (stn m a n v) a n = le_bytes n v.
Proof.
  revert m a. induction n; intros m a v; cbn [stn bytes_at le_bytes]; [reflexivity|].
  rewrite IHn. f_equal. rewrite rd_stn_other by lia. rewrite rd_upd, Z.eqb_refl. reflexivity.
Qed.
Lemma stn_write m a n : forall v, stn m a n v = write_bytes m a (le_bytes n v).
Proof.
  revert m a. induction n; intros m a v; cbn [stn write_bytes le_bytes]; [reflexivity|]. rewrite <- IHn.
  f_equal. unfold upd. rewrite Z.mod_mod by lia. reflexivity.
Qed.
Lemma ldn_holds m a n v : 0 <= v < 256 ^ Z.of_nat n -> holds m a (le_bytes n v) -> ldn m a n = v.
Proof.
  intros Hv (H1 & H2 & H3). rewrite len_le_bytes in H3. rewrite ldn_le, H3, le_val_le_bytes. apply Z.mod_small; auto.
Qed.
Lemma holds_ldn m a n : 0 <= a -> a + Z.of_nat n <= msize m <= m32 -> holds m a (le_bytes n (ldn m a n)).
Proof.
  intros Ha Hm. split; [auto|]. rewrite len_le_bytes. split; [exact Hm|].
  clear Ha Hm. revert a. induction n; intros a; cbn [bytes_at ldn le_bytes]; [reflexivity|].
  pose proof (rd_range m a).
  rewrite (Z.mul_comm 256), Z.mod_add, Z.div_add by lia. rewrite (Z.mod_small (rd m a)), (Z.div_small (rd m a)) by lia.
  cbn [Z.add]. f_equal. apply IHn.
Qed.
