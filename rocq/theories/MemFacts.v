(** * More facts about linear memory (proof support). *)
From Coq Require Import ZArith String List Bool Lia.
Import ListNotations.
From Verif Require Import Wasm Std StdEnv Spec Mem.
Open Scope Z_scope.

Lemma ldn1 m a : ldn m a 1 = rd m a.
Proof. cbn [ldn]. lia. Qed.

Lemma bytes_at_S m a n : bytes_at m a (S n) = rd m a :: bytes_at m (a + 1) n.
Proof. reflexivity. Qed.

Lemma bytes_at_mcopy_same m d s n : bytes_at (mcopy m d s (Z.of_nat n)) d n = bytes_at m s n.
Proof.
  assert (H : forall k i, (k + i <= n)%nat -> bytes_at (mcopy m d s (Z.of_nat n)) (d + Z.of_nat i) k = bytes_at m (s + Z.of_nat i) k).
  { induction k as [|k IH]; intros i Hi; [reflexivity|]. rewrite !bytes_at_S. f_equal.
    - rewrite rd_mcopy. destruct (Z.leb_spec d (d + Z.of_nat i)), (Z.ltb_spec (d + Z.of_nat i) (d + Z.of_nat n)); try lia. cbn [andb]. f_equal. lia.
    - specialize (IH (S i) ltac:(lia)). rewrite Nat2Z.inj_succ in IH.
      replace (d + Z.of_nat i + 1) with (d + Z.succ (Z.of_nat i)) by lia. rewrite IH. f_equal. lia. }
  specialize (H n O ltac:(lia)). cbn in H. rewrite !Z.add_0_r in H. exact H.
Qed.
Lemma rd_mcopy_other m d s n x : x < d \/ d + n <= x -> rd (mcopy m d s n) x = rd m x.
Proof. intros H. rewrite rd_mcopy. destruct (Z.leb_spec d x), (Z.ltb_spec x (d + n)); try reflexivity; lia. Qed.
Lemma rd_stn_other m a n v x : x < a \/ a + Z.of_nat n <= x -> rd (stn m a n v) x = rd m x.
Proof. intros H. rewrite rd_stn. destruct (Z.leb_spec a x), (Z.ltb_spec x (a + Z.of_nat n)); try reflexivity; lia. Qed.
Lemma rd_mfill_other m d v n x : x < d \/ d + n <= x -> rd (mfill m d v n) x = rd m x.
Proof. intros H. rewrite rd_mfill. destruct (Z.leb_spec d x), (Z.ltb_spec x (d + n)); try reflexivity; lia. Qed.

Lemma bytes_at_mcopy_other m d s n a k : a + Z.of_nat k <= d \/ d + n <= a -> bytes_at (mcopy m d s n) a k = bytes_at m a k.
Proof. intros H. apply bytes_at_ext. intros x Hx. apply rd_mcopy_other. lia. Qed.
Lemma bytes_at_stn_other m b n v a k : a + Z.of_nat k <= b \/ b + Z.of_nat n <= a -> bytes_at (stn m b n v) a k = bytes_at m a k.
Proof. intros H. apply bytes_at_ext. intros x Hx. apply rd_stn_other. lia. Qed.
Lemma bytes_at_mfill_other m d v n a k : a + Z.of_nat k <= d \/ d + n <= a -> bytes_at (mfill m d v n) a k = bytes_at m a k.
Proof. intros H. apply bytes_at_ext. intros x Hx. apply rd_mfill_other. lia. Qed.
Lemma rd_stn1_same m a v : rd (stn m a 1 v) a = v mod 256.
Proof. cbn [stn]. rewrite rd_upd, Z.eqb_refl. reflexivity. Qed.

Lemma bytes_at_stn m a n v : bytes_at (stn m a n v) a n = map (fun i => (v / 256 ^ Z.of_nat i) mod 256) (seq 0 n).
Proof.
  assert (H : forall k i, (k + i <= n)%nat -> bytes_at (stn m a n v) (a + Z.of_nat i) k = map (fun i => (v / 256 ^ Z.of_nat i) mod 256) (seq i k)).
  { induction k as [|k IH]; intros i Hi; [reflexivity|]. rewrite bytes_at_S. cbn [seq map]. f_equal.
    - rewrite rd_stn. destruct (Z.leb_spec a (a + Z.of_nat i)), (Z.ltb_spec (a + Z.of_nat i) (a + Z.of_nat n)); try lia. cbn [andb]. do 3 f_equal. lia.
    - rewrite <- (IH (S i)) by lia. f_equal. lia. }
  specialize (H n O ltac:(lia)). cbn [Z.of_nat] in H. rewrite Z.add_0_r in H. exact H.
Qed.

Lemma holds_len m a bs : holds m a bs -> 0 <= a /\ a + Z.of_nat (length bs) <= msize m /\ msize m <= m32.
Proof. intros (H1 & H2 & _). change (2 ^ 32) with m32 in H2. lia. Qed.
Lemma holds_eq m a bs : holds m a bs -> bytes_at m a (length bs) = bs.
Proof. intros (_ & _ & H). exact H. Qed.
Lemma holds_ext m m' a bs : msize m' = msize m -> (forall x, a <= x < a + Z.of_nat (length bs) -> rd m' x = rd m x) ->
  holds m a bs -> holds m' a bs.
Proof.
  intros Hs Hr (H1 & H2 & H3). split; [auto|]. rewrite Hs. split; [auto|]. rewrite <- H3 at 2.
  apply bytes_at_ext. auto.
Qed.

Lemma only_refl m a n : only_changes m m a n.
Proof. split; auto. Qed.
Lemma only_trans m1 m2 m3 a n : only_changes m1 m2 a n -> only_changes m2 m3 a n -> only_changes m1 m3 a n.
Proof. intros [H1 H2] [H3 H4]. split; [congruence|]. intros. rewrite H4, H2; auto. Qed.
Lemma only_weaken m m' a n b k : only_changes m m' a n -> b <= a -> a + n <= b + k -> only_changes m m' b k.
Proof. intros [H1 H2] Ha Hb. split; [auto|]. intros. apply H2. lia. Qed.
Lemma only_stn m a n v : only_changes m (stn m a n v) a (Z.of_nat n).
Proof. split; [apply msize_stn|]. intros. apply rd_stn_other. auto. Qed.
Lemma only_mcopy m d s n : only_changes m (mcopy m d s n) d n.
Proof. split; [reflexivity|]. intros. apply rd_mcopy_other. auto. Qed.
Lemma only_mfill m d v n : only_changes m (mfill m d v n) d n.
Proof. split; [reflexivity|]. intros. apply rd_mfill_other. auto. Qed.
Lemma only_holds m m' a n b bs : only_changes m m' a n -> b + Z.of_nat (length bs) <= a \/ a + n <= b ->
  holds m b bs -> holds m' b bs.
Proof. intros [H1 H2] H. apply holds_ext; auto. intros. apply H2. lia. Qed.
Lemma only_bytes m m' a n b k : only_changes m m' a n -> b + Z.of_nat k <= a \/ a + n <= b ->
  bytes_at m' b k = bytes_at m b k.
Proof. intros [H1 H2] H. apply bytes_at_ext. intros. apply H2. lia. Qed.
Lemma with_mem_mem {HS} (st : store HS) m : smem (with_mem st m) = m.
Proof. reflexivity. Qed.
Lemma with_mem_same {HS} (st : store HS) : with_mem st (smem st) = st.
Proof. destruct st; reflexivity. Qed.
Lemma with_mem_twice {HS} (st : store HS) m m' : with_mem (with_mem st m) m' = with_mem st m'.
Proof. reflexivity. Qed.

Lemma cfg_inj {HS} l1 l2 k (s1 s2 : store HS) : mkcfg l1 k s1 = mkcfg l2 k s2 -> l1 = l2 /\ s1 = s2.
Proof. intros H. split; [exact (f_equal (@clocals HS) H)|exact (f_equal (@cstore HS) H)]. Qed.

Lemma msize_write bs : forall m a, msize (write_bytes m a bs) = msize m.
Proof. induction bs; intros; cbn [write_bytes]; [reflexivity|]. rewrite IHbs. reflexivity. Qed.
Lemma only_write bs : forall m a, only_changes m (write_bytes m a bs) a (Z.of_nat (length bs)).
Proof.
  induction bs as [|b bs IH]; intros m a; cbn [write_bytes length]; [apply only_refl|].
  rewrite Nat2Z.inj_succ. eapply only_trans; [|eapply only_weaken; [apply IH|lia|lia]].
  split; [reflexivity|]. intros x Hx. rewrite rd_upd. destruct (Z.eqb_spec x a); [lia|reflexivity].
Qed.
Lemma bytes_at_write bs : forall m a, Forall (fun b => 0 <= b < 256) bs -> bytes_at (write_bytes m a bs) a (length bs) = bs.
Proof.
  induction bs as [|b bs IH]; intros m a H; [reflexivity|]. inversion H; subst.
  cbn [write_bytes length]. rewrite bytes_at_S. f_equal; [|apply IH; auto].
  destruct (only_write bs (upd m a b) (a + 1)) as [_ HO]. rewrite HO by lia. rewrite rd_upd, Z.eqb_refl. apply Z.mod_small. auto.
Qed.
Lemma write_app xs ys : forall m a, write_bytes m a (xs ++ ys) = write_bytes (write_bytes m a xs) (a + Z.of_nat (length xs)) ys.
Proof.
  induction xs as [|x xs IH]; intros m a; cbn [app write_bytes length].
  - f_equal. lia.
  - rewrite IH. f_equal. lia.
Qed.
Lemma stn1_write m a v : stn m a 1 v = write_bytes m a [v].
Proof. reflexivity. Qed.
