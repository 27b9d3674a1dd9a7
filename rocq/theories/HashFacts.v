(** * Facts about word arrays in memory and the SHA-2 specification (proof support) *)
From Coq Require Import ZArith String List Bool Lia.
Import ListNotations.
From Verif Require Import Wasm Std StdEnv WasmLogic WasmTac Spec SpecBytes Mem MemFacts Bytes ConvProofs SpecHash.
Open Scope list_scope.
Open Scope Z_scope.

(** [ws] is the array of little-endian words of [b] bytes at [a] *)
Definition arr (b : nat) (m : mem) (a : Z) (ws : list Z) : Prop :=
  forall i, (i < length ws)%nat -> ldn m (a + Z.of_nat b * Z.of_nat i) b = nth i ws 0.

Lemma arr_ext b m m' a ws : (forall x, a <= x < a + Z.of_nat b * Z.of_nat (length ws) -> rd m' x = rd m x) -> arr b m a ws -> arr b m' a ws.
Proof.
  intros H HA i Hi. rewrite <- (HA i Hi). apply ldn_ext. intros x Hx. apply H. nia.
Qed.
Lemma arr_only b m m' a ws x n : only_changes m m' x n -> a + Z.of_nat b * Z.of_nat (length ws) <= x \/ x + n <= a -> arr b m a ws -> arr b m' a ws.
Proof. intros (_ & H) Hd. apply arr_ext. intros y Hy. apply H. lia. Qed.
Lemma arr_nil b m a : arr b m a [].
Proof. intros i Hi. cbn in Hi. lia. Qed.
Lemma arr_snoc b m a ws w : 0 <= w < 256 ^ Z.of_nat b -> arr b m a ws -> arr b (stn m (a + Z.of_nat b * Z.of_nat (length ws)) b w) a (ws ++ [w]).
Proof.
  intros Hw HA i Hi. rewrite app_length in Hi. cbn [length] in Hi. destruct (Nat.eq_dec i (length ws)) as [->|Hn].
  - rewrite ldn_stn_same, nth_middle. apply Z.mod_small. exact Hw.
  - rewrite ldn_stn_other by nia. rewrite app_nth1 by lia. apply HA. lia.
Qed.
Lemma arr_get b m a ws i x : (i < length ws)%nat -> arr b m a ws -> x = a + Z.of_nat b * Z.of_nat i -> ldn m x b = nth i ws 0.
Proof. intros Hi HA ->. auto. Qed.

(** ** Byte reversal by swizzle *)
Lemma vjoin_byte f n : (forall i, 0 <= f i < 256) -> forall i j, 0 <= j < Z.of_nat n -> (vjoin n f i / 256 ^ j) mod 256 = f (i + j).
Proof.
  intros Hf. induction n as [|n IH]; intros i j Hj; [lia|]. cbn [vjoin]. destruct (Z.eq_dec j 0) as [->|Hn].
  - rewrite Z.pow_0_r, Z.div_1_r, Z.add_0_r. replace (f i + 256 * vjoin n f (i + 1)) with (f i + vjoin n f (i + 1) * 256) by ring.
    rewrite Z.mod_add by lia. apply Z.mod_small. auto.
  - replace j with (1 + (j - 1)) at 1 by lia. rewrite Z.pow_add_r by lia. change (256 ^ 1) with 256.
    rewrite <- Z.div_div by (try apply Z.pow_pos_nonneg; lia). replace (f i + 256 * vjoin n f (i + 1)) with (vjoin n f (i + 1) * 256 + f i) by ring.
    rewrite Z.div_add_l by lia. rewrite (Z.div_small (f i)) by auto. rewrite Z.add_0_r, IH by lia. f_equal. lia.
Qed.
Lemma swizzle_rd m s r C p i : (forall j, 0 <= j < 16 -> vbyte C j = p j /\ 0 <= p j < 16) -> 0 <= i < 16 ->
  rd (stn m r 16 (swizzle (ldn m s 16) C)) (r + i) = rd m (s + p i).
Proof.
  intros HC Hi. rewrite rd_stn. change (Z.of_nat 16) with 16.
  destruct (Z.leb_spec r (r + i)), (Z.ltb_spec (r + i) (r + 16)); try lia. cbn [andb]. replace (r + i - r) with i by lia.
  unfold swizzle. rewrite vjoin_byte.
  - rewrite Z.add_0_l. destruct (HC i Hi) as (-> & Hp). destruct (Z.ltb_spec (p i) 16); [|lia]. apply vbyte_ldn. change (Z.of_nat 16) with 16. lia.
  - intros j. destruct (_ <? 16); [|lia]. unfold vbyte. apply Z.mod_pos_bound. lia.
  - change (Z.of_nat 16) with 16. lia.
Qed.
(** position of byte [i] when words of [b] bytes are reversed *)
Definition swap (b i : Z) : Z := i - 2 * (i mod b) + (b - 1).
Lemma swap4_const j : 0 <= j < 16 -> vbyte 16018520953223639909183530438118932995 j = swap 4 j /\ 0 <= swap 4 j < 16.
Proof.
  intros Hj. split; [|unfold swap; zlia].
  assert (HC : j = 0 \/ j = 1 \/ j = 2 \/ j = 3 \/ j = 4 \/ j = 5 \/ j = 6 \/ j = 7 \/ j = 8 \/ j = 9 \/ j = 10 \/ j = 11 \/ j = 12 \/ j = 13 \/ j = 14 \/ j = 15) by lia.
  repeat destruct HC as [->|HC]; try reflexivity. subst; reflexivity.
Qed.
Lemma swap8_const j : 0 <= j < 16 -> vbyte 10680758337341567148842519922299176455 j = swap 8 j /\ 0 <= swap 8 j < 16.
Proof.
  intros Hj. split; [|unfold swap; zlia].
  assert (HC : j = 0 \/ j = 1 \/ j = 2 \/ j = 3 \/ j = 4 \/ j = 5 \/ j = 6 \/ j = 7 \/ j = 8 \/ j = 9 \/ j = 10 \/ j = 11 \/ j = 12 \/ j = 13 \/ j = 14 \/ j = 15) by lia.
  repeat destruct HC as [->|HC]; try reflexivity. subst; reflexivity.
Qed.

(** ** Pieces *)
Lemma pieces_len {A} n (l : list A) : length (pieces n l) = (length l / n)%nat.
Proof. unfold pieces. rewrite map_length, seq_length. reflexivity. Qed.
Lemma pieces_nth {A} n (l : list A) i : (i < length l / n)%nat -> nth_error (pieces n l) i = Some (firstn n (skipn (n * i) l)).
Proof.
  intros Hi. unfold pieces. rewrite nth_error_map, (nth_error_nth' _ 0%nat) by (rewrite seq_length; exact Hi).
  rewrite seq_nth by exact Hi. reflexivity.
Qed.
Lemma firstn_bytes m a n k : (k <= n)%nat -> firstn k (bytes_at m a n) = bytes_at m a k.
Proof.
  intros H. replace n with (k + (n - k))%nat by lia. rewrite bytes_at_app, firstn_app, length_bytes_at.
  replace (k - k)%nat with 0%nat by lia. rewrite firstn_O, app_nil_r, firstn_all2; [reflexivity|rewrite length_bytes_at; lia].
Qed.
Lemma skipn_bytes m a n k : (k <= n)%nat -> skipn k (bytes_at m a n) = bytes_at m (a + Z.of_nat k) (n - k).
Proof.
  intros H. replace n with (k + (n - k))%nat at 1 by lia. rewrite bytes_at_app, skipn_app, length_bytes_at.
  replace (k - k)%nat with 0%nat by lia. rewrite skipn_O, skipn_all2; [reflexivity|rewrite length_bytes_at; lia].
Qed.
Lemma piece_bytes m a n k i : (k * (i + 1) <= n)%nat -> firstn k (skipn (k * i) (bytes_at m a n)) = bytes_at m (a + Z.of_nat (k * i)) k.
Proof. intros H. rewrite skipn_bytes by lia. apply firstn_bytes. lia. Qed.

(** big-endian words of a block, once byte-reversed *)
Lemma ldn4_swap m m' x y : (forall i, 0 <= i < 4 -> rd m' (x + i) = rd m (y + 3 - i)) -> ldn m' x 4 = be_value (bytes_at m y 4).
Proof.
  intros H. pose proof (H 0 ltac:(lia)) as H0. pose proof (H 1 ltac:(lia)) as H1. pose proof (H 2 ltac:(lia)) as H2. pose proof (H 3 ltac:(lia)) as H3.
  cbn [ldn bytes_at]. unfold be_value. cbn [fold_left].
  replace (x + 1 + 1 + 1) with (x + 3) by lia. replace (x + 1 + 1) with (x + 2) by lia. rewrite Z.add_0_r in H0. rewrite H0, H1, H2, H3.
  replace (y + 3 - 0) with (y + 1 + 1 + 1) by lia. replace (y + 3 - 1) with (y + 1 + 1) by lia. replace (y + 3 - 2) with (y + 1) by lia. replace (y + 3 - 3) with y by lia.
  ring.
Qed.
Lemma ldn8_swap m m' x y : (forall i, 0 <= i < 8 -> rd m' (x + i) = rd m (y + 7 - i)) -> ldn m' x 8 = be_value (bytes_at m y 8).
Proof.
  intros H. change 8%nat with (4 + 4)%nat at 1.
  rewrite (ldn_app m' x 4 4), (ldn4_swap m m' x (y + 4)), (ldn4_swap m m' (x + Z.of_nat 4) y).
  - change 8%nat with (4 + 4)%nat. rewrite bytes_at_app. unfold be_value. rewrite fold_left_app. cbn [bytes_at fold_left]. change (256 ^ Z.of_nat 4) with 4294967296.
    change (Z.of_nat 4) with 4. ring.
  - intros i Hi. change (Z.of_nat 4) with 4. replace (x + 4 + i) with (x + (4 + i)) by lia. rewrite H by lia. f_equal. lia.
  - intros i Hi. rewrite H by lia. f_equal. lia.
Qed.

Lemma le_bytes_ldn m n : forall a, le_bytes n (ldn m a n) = bytes_at m a n.
Proof.
  induction n as [|n IH]; intros a; [reflexivity|]. cbn [ldn le_bytes bytes_at]. pose proof (rd_range m a) as Hr. f_equal.
  - replace (rd m a + 256 * ldn m (a + 1) n) with (rd m a + ldn m (a + 1) n * 256) by ring. rewrite Z.mod_add by lia. apply Z.mod_small. exact Hr.
  - replace (rd m a + 256 * ldn m (a + 1) n) with (ldn m (a + 1) n * 256 + rd m a) by ring. rewrite Z.div_add_l by lia. rewrite (Z.div_small (rd m a)) by exact Hr.
    rewrite Z.add_0_r. apply IH.
Qed.

(** the big-endian bytes of a byte-reversed array *)
Lemma be_digest4 m m' a r ws : arr 4 m a ws -> (forall i, 0 <= i < 4 * Z.of_nat (length ws) -> rd m' (r + i) = rd m (a + swap 4 i)) ->
  bytes_at m' r (4 * length ws) = flat_map (be_bytes 4) ws.
Proof.
  revert a r. induction ws as [|w ws IH]; intros a r HA H; [reflexivity|].
  cbn [flat_map length]. replace (4 * S (length ws))%nat with (4 + 4 * length ws)%nat by lia. rewrite bytes_at_app. f_equal.
  - assert (Hl : bytes_at m a 4 = le_bytes 4 w).
    { pose proof (HA 0%nat ltac:(cbn; lia)) as H0. rewrite Z.mul_0_r, Z.add_0_r in H0. cbn [nth] in H0. rewrite <- H0. symmetry. apply le_bytes_ldn. }
    unfold be_bytes. rewrite <- Hl. cbn [bytes_at rev app].
    pose proof (H 0 ltac:(cbn [length]; lia)) as H0. pose proof (H 1 ltac:(cbn [length]; lia)) as H1. pose proof (H 2 ltac:(cbn [length]; lia)) as H2. pose proof (H 3 ltac:(cbn [length]; lia)) as H3.
    rewrite Z.add_0_r in H0. replace (r + 1 + 1 + 1) with (r + 3) by lia. replace (r + 1 + 1) with (r + 2) by lia. rewrite H0, H1, H2, H3. unfold swap.
    change (0 mod 4) with 0. change (1 mod 4) with 1. change (2 mod 4) with 2. change (3 mod 4) with 3.
    repeat (apply f_equal2; [f_equal; lia|]). reflexivity.
  - apply (IH (a + 4)).
    + intros i Hi. pose proof (HA (S i) ltac:(cbn [length]; lia)) as Hx. cbn [nth] in Hx. rewrite <- Hx. f_equal. lia.
    + intros i Hi. replace (r + Z.of_nat 4 + i) with (r + (4 + i)) by lia. rewrite H by (cbn [length]; lia). f_equal. unfold swap. zlia.
Qed.
Lemma be_digest8 m m' a r ws : arr 8 m a ws -> (forall i, 0 <= i < 8 * Z.of_nat (length ws) -> rd m' (r + i) = rd m (a + swap 8 i)) ->
  bytes_at m' r (8 * length ws) = flat_map (be_bytes 8) ws.
Proof.
  revert a r. induction ws as [|w ws IH]; intros a r HA H; [reflexivity|].
  cbn [flat_map length]. replace (8 * S (length ws))%nat with (8 + 8 * length ws)%nat by lia. rewrite bytes_at_app. f_equal.
  - assert (Hl : bytes_at m a 8 = le_bytes 8 w).
    { pose proof (HA 0%nat ltac:(cbn; lia)) as H0. rewrite Z.mul_0_r, Z.add_0_r in H0. cbn [nth] in H0. rewrite <- H0. symmetry. apply le_bytes_ldn. }
    unfold be_bytes. rewrite <- Hl. cbn [bytes_at rev app].
    pose proof (H 0 ltac:(cbn [length]; lia)) as H0. pose proof (H 1 ltac:(cbn [length]; lia)) as H1. pose proof (H 2 ltac:(cbn [length]; lia)) as H2. pose proof (H 3 ltac:(cbn [length]; lia)) as H3.
    pose proof (H 4 ltac:(cbn [length]; lia)) as H4. pose proof (H 5 ltac:(cbn [length]; lia)) as H5. pose proof (H 6 ltac:(cbn [length]; lia)) as H6. pose proof (H 7 ltac:(cbn [length]; lia)) as H7.
    rewrite Z.add_0_r in H0. replace (r + 1 + 1) with (r + 2) by lia. replace (r + 2 + 1) with (r + 3) by lia. replace (r + 3 + 1) with (r + 4) by lia. replace (r + 4 + 1) with (r + 5) by lia. replace (r + 5 + 1) with (r + 6) by lia. replace (r + 6 + 1) with (r + 7) by lia.
    rewrite H0, H1, H2, H3, H4, H5, H6, H7. unfold swap.
    repeat match goal with |- context [?x mod 8] => let v := eval vm_compute in (x mod 8) in change (x mod 8) with v end.
    repeat (apply f_equal2; [f_equal; lia|]). reflexivity.
  - apply (IH (a + 8)).
    + intros i Hi. pose proof (HA (S i) ltac:(cbn [length]; lia)) as Hx. cbn [nth] in Hx. rewrite <- Hx. f_equal. lia.
    + intros i Hi. replace (r + Z.of_nat 8 + i) with (r + (8 + i)) by lia. rewrite H by (cbn [length]; lia). f_equal. unfold swap. zlia.
Qed.

(** ** Schedule and rounds *)
Lemma schedule_snoc s n : forall ws, schedule s (S n) ws = schedule s n ws ++ [sched_next s (schedule s n ws)].
Proof. induction n as [|n IH]; intros ws; [reflexivity|]. cbn [schedule] in *. rewrite <- IH. reflexivity. Qed.
Lemma schedule_len s n : forall ws, length (schedule s n ws) = (length ws + n)%nat.
Proof. induction n as [|n IH]; intros ws; cbn [schedule]; [lia|]. rewrite IH, app_length. cbn [length]. lia. Qed.
Lemma sched_bound s ws : 0 <= bits s -> 0 <= sched_next s ws < 2 ^ bits s.
Proof. intros H. unfold sched_next. apply Z.mod_pos_bound. apply Z.pow_pos_nonneg; lia. Qed.
Lemma fold_firstn {A B} (f : A -> B -> A) (l : list B) d v j : (j < length l)%nat ->
  fold_left f (firstn (S j) l) v = f (fold_left f (firstn j l) v) (nth j l d).
Proof.
  intros Hj. change (f (fold_left f (firstn j l) v) (nth j l d)) with (fold_left f [nth j l d] (fold_left f (firstn j l) v)). rewrite <- fold_left_app. f_equal. revert l Hj. induction j as [|j IH]; intros [|x l] Hj; cbn [length] in Hj; try lia; [reflexivity|].
  cbn [firstn nth app]. f_equal. apply IH. lia.
Qed.
Lemma combine_nth' {A B} (l : list A) (l' : list B) a b i : (i < length l)%nat -> (i < length l')%nat -> nth i (combine l l') (a, b) = (nth i l a, nth i l' b).
Proof.
  revert l' i. induction l as [|x l IH]; intros [|y l'] [|i] H1 H2; cbn [length] in *; try lia; [reflexivity|]. cbn [combine nth]. apply IH; lia.
Qed.
Lemma rot32 n x : 0 <= n -> n <= 32 -> rotr 32 n x = Z.lor (x / 2 ^ n) ((x * 2 ^ (32 - n)) mod m32).
Proof. intros. unfold rotr. rewrite Z.shiftr_div_pow2, Z.shiftl_mul_pow2 by lia. reflexivity. Qed.
Lemma rot64 n x : 0 <= n -> n <= 64 -> rotr 64 n x = Z.lor (x / 2 ^ n) ((x * 2 ^ (64 - n)) mod m64).
Proof. intros. unfold rotr. rewrite Z.shiftr_div_pow2, Z.shiftl_mul_pow2 by lia. reflexivity. Qed.
Lemma shr_div n x : 0 <= n -> shr n x = x / 2 ^ n.
Proof. intros. apply Z.shiftr_div_pow2. exact H. Qed.

(** ** The constants of the standard library *)
Definition consts (m : mem) : Prop := forall x, 0 <= x < 1352 -> rd m x = seg_at std_data x.
Lemma consts_only m m' a n : only_changes m m' a n -> 1352 <= a -> consts m -> consts m'.
Proof. intros (_ & H) Ha HC x Hx. rewrite H by lia. auto. Qed.
Definition arr_b (b : nat) (a : Z) (ws : list Z) : bool :=
  forallb (fun p => ldn std_mem (a + Z.of_nat b * Z.of_nat (fst p)) b =? snd p) (combine (seq 0 (length ws)) ws).
Lemma seg_byte x : 0 <= x < 1352 -> rd std_mem x = seg_at std_data x.
Proof.
  intros Hx. unfold rd, std_mem. cbn [mdata]. apply Z.mod_small.
  assert (HA : forallb (fun i => let z := seg_at std_data (Z.of_nat i) in (0 <=? z) && (z <? 256)) (seq 0 (Z.to_nat 1352)) = true) by (vm_compute; reflexivity).
  rewrite forallb_forall in HA. specialize (HA (Z.to_nat x)). cbv zeta in HA. rewrite Z2Nat.id in HA by lia.
  specialize (HA ltac:(apply in_seq; lia)). lia.
Qed.
Lemma consts_arr m b a ws : consts m -> 0 <= a -> a + Z.of_nat b * Z.of_nat (length ws) <= 1352 -> arr_b b a ws = true -> arr b m a ws.
Proof.
  intros HC Ha Hb H i Hi. unfold arr_b in H. rewrite forallb_forall in H. specialize (H (i, nth i ws 0)). cbn [fst snd] in H.
  transitivity (ldn std_mem (a + Z.of_nat b * Z.of_nat i) b).
  - apply ldn_ext. intros x Hx. rewrite seg_byte by nia. apply HC. nia.
  - apply Z.eqb_eq, H. replace (i, nth i ws 0) with (nth i (combine (seq 0 (length ws)) ws) (O, 0)).
    + apply nth_In. rewrite combine_length, seq_length. lia.
    + rewrite combine_nth' by (rewrite ?seq_length; exact Hi). rewrite seq_nth by exact Hi. reflexivity.
Qed.

(** ** Padding *)
Lemma bytes_at_mfill m d n : bytes_at (mfill m d 0 (Z.of_nat n)) d n = repeat 0 n.
Proof.
  assert (H : forall k a, d <= a -> a + Z.of_nat k <= d + Z.of_nat n -> bytes_at (mfill m d 0 (Z.of_nat n)) a k = repeat 0 k).
  { induction k as [|k IH]; intros a Ha Hk; [reflexivity|]. cbn [bytes_at repeat]. rewrite IH by lia. f_equal. rewrite rd_mfill.
    replace ((d <=? a) && (a <? d + Z.of_nat n))%bool with true; [reflexivity|]. symmetry. apply andb_true_intro. split; [apply Z.leb_le|apply Z.ltb_lt]; lia. }
  apply H; lia.
Qed.
Lemma lor_fill x k : 0 <= k -> 0 <= x -> Z.lor x (2 ^ k - 1) = 2 ^ k * (x / 2 ^ k) + (2 ^ k - 1).
Proof.
  intros Hk Hx. assert (Hp : 0 < 2 ^ k) by (apply Z.pow_pos_nonneg; lia). rewrite Z.mul_comm, <- ZBits.lor_add by lia.
  apply Z.bits_inj'. intros i Hi. rewrite !Z.lor_spec.
  replace (2 ^ k - 1) with (Z.ones k) by (rewrite Z.ones_equiv; lia).
  destruct (Z_lt_ge_dec i k).
  - rewrite Z.ones_spec_low by lia. rewrite !orb_true_r. reflexivity.
  - rewrite Z.ones_spec_high by lia. rewrite !orb_false_r. rewrite Z.mul_pow2_bits by lia. rewrite Z.div_pow2_bits by lia. f_equal. lia.
Qed.
