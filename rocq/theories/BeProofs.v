(** * Proofs about the big-endian memory accessors of the standard library. *)
From Coq Require Import ZArith String List Bool Lia.
Import ListNotations.
From Verif Require Import Wasm Std StdEnv WasmLogic WasmTac Spec SpecBytes SpecUtf8 ZBits Mem MemFacts Bytes ArithProofs NameProofs Utf8Proofs.
Open Scope string_scope.
Open Scope list_scope.
Open Scope Z_scope.

Lemma land255 b : 0 <= b < 256 -> Z.land b 255 = b.
Proof. intros Hb. change 255 with (2 ^ 8 - 1). rewrite land_mask by lia. apply Z.mod_small. exact Hb. Qed.

(** a mask that selects the second, third, fourth byte *)
Lemma mask1 a b r : 0 <= a < 256 -> 0 <= b < 256 -> Z.land (a + 256 * (b + 256 * r)) 65280 = 256 * b.
Proof.
  intros Ha Hb. change 65280 with (0 + 2 ^ 8 * (255 + 2 ^ 8 * 0)). change 256 with (2 ^ 8) at 1 2. rewrite !land_split by lia.
  rewrite !Z.land_0_r, land255 by auto. lia.
Qed.
Lemma mask2 a b c r : 0 <= a < 256 -> 0 <= b < 256 -> 0 <= c < 256 -> Z.land (a + 256 * (b + 256 * (c + 256 * r))) 16711680 = 65536 * c.
Proof.
  intros Ha Hb Hc. change 16711680 with (0 + 2 ^ 8 * (0 + 2 ^ 8 * (255 + 2 ^ 8 * 0))). change 256 with (2 ^ 8) at 1 2 3. rewrite !land_split by lia.
  rewrite !Z.land_0_r, land255 by auto. lia.
Qed.
Lemma mask3 a b c d r : 0 <= a < 256 -> 0 <= b < 256 -> 0 <= c < 256 -> 0 <= d < 256 ->
  Z.land (a + 256 * (b + 256 * (c + 256 * (d + 256 * r)))) 4278190080 = 16777216 * d.
Proof.
  intros Ha Hb Hc Hd. change 4278190080 with (0 + 2 ^ 8 * (0 + 2 ^ 8 * (0 + 2 ^ 8 * (255 + 2 ^ 8 * 0)))). change 256 with (2 ^ 8) at 1 2 3 4. rewrite !land_split by lia.
  rewrite !Z.land_0_r, land255 by auto. lia.
Qed.

(** a number is its base-256 digits *)
Fixpoint of_digits (ds : list Z) : Z := match ds with [] => 0 | d :: ds => d + 256 * of_digits ds end.
Lemma of_digits_le n : forall z, 0 <= z < 256 ^ Z.of_nat n -> of_digits (le_bytes n z) = z.
Proof.
  induction n; intros z Hz.
  - cbn in *. lia.
  - cbn [le_bytes of_digits]. rewrite IHn; [zlia|]. rewrite Nat2Z.inj_succ, Z.pow_succ_r in Hz by lia.
    split; [apply Z.div_pos; lia|]. apply Z.div_lt_upper_bound; lia.
Qed.
Lemma digits_range ds : Forall (fun b => 0 <= b < 256) ds -> 0 <= of_digits ds < 256 ^ Z.of_nat (length ds).
Proof.
  induction 1 as [|d ds Hd H IH]; [cbn; lia|]. cbn [of_digits length]. rewrite Nat2Z.inj_succ, Z.pow_succ_r by lia. lia.
Qed.
Lemma le_bytes_digits ds : Forall (fun b => 0 <= b < 256) ds -> le_bytes (length ds) (of_digits ds) = ds.
Proof.
  induction 1 as [|d ds Hd H IH]; [reflexivity|]. cbn [of_digits length le_bytes].
  replace (d + 256 * of_digits ds) with (d + of_digits ds * 256) by lia.
  rewrite Z.mod_add, Z.mod_small, Z.div_add, Z.div_small, Z.add_0_l, IH by lia. reflexivity.
Qed.
Lemma stn_be m a n z : 0 <= z < 256 ^ Z.of_nat n -> stn m a n (of_digits (be_bytes n z)) = write_bytes m a (be_bytes n z).
Proof.
  intros Hz. rewrite stn_write. f_equal. rewrite <- (len_be_bytes n z) at 1. apply le_bytes_digits. apply be_bytes_byte.
Qed.

Lemma swap32 v : 0 <= v < m32 ->
  Z.lor (Z.lor ((v * 2 ^ 24) mod m32) ((Z.land v 65280 * 2 ^ 8) mod m32)) (Z.lor (Z.land (v / 2 ^ 8) 65280) (v / 2 ^ 24)) = of_digits (be_bytes 4 v).
Proof.
  intros Hv. pose proof (of_digits_le 4 v Hv) as Hx. unfold be_bytes. pose proof (le_bytes_byte 4 v) as HB.
  destruct (le_bytes 4 v) as [|a [|b [|c [|d []]]]] eqn:EQ; try (apply (f_equal (@length Z)) in EQ; rewrite len_le_bytes in EQ; discriminate).
  clear EQ. rewrite !Forall_cons_iff in HB. destruct HB as (A & B & C & D & _). cbn [rev app of_digits] in *. rewrite <- Hx.
  rewrite mask1 by auto.
  replace ((a + 256 * (b + 256 * (c + 256 * (d + 256 * 0)))) / 2 ^ 8) with (b + 256 * (c + 256 * (d + 256 * 0))) by (change (2 ^ 8) with 256; zlia).
  rewrite mask1 by auto.
  replace ((a + 256 * (b + 256 * (c + 256 * (d + 256 * 0)))) / 2 ^ 24) with d by (change (2 ^ 24) with 16777216; zlia).
  replace (((a + 256 * (b + 256 * (c + 256 * (d + 256 * 0)))) * 2 ^ 24) mod m32) with (a * 2 ^ 24) by (change (2 ^ 24) with 16777216; zlia).
  replace ((256 * b * 2 ^ 8) mod m32) with (b * 2 ^ 16) by (change (2 ^ 16) with 65536; change (2 ^ 8) with 256; zlia).
  replace (256 * c) with (c * 2 ^ 8) by lia.
  rewrite (lor_add d c 8) by lia. rewrite (lor_add (b * 2 ^ 16) a 24) by lia.
  replace (a * 2 ^ 24 + b * 2 ^ 16) with ((a * 2 ^ 8 + b) * 2 ^ 16) by lia. rewrite lor_add by lia. lia.
Qed.

Lemma swap64 v : 0 <= v < m64 ->
  Z.lor (Z.lor (Z.lor ((v * 2 ^ 56) mod m64) ((Z.land v 65280 * 2 ^ 40) mod m64))
               (Z.lor ((Z.land v 16711680 * 2 ^ 24) mod m64) ((Z.land v 4278190080 * 2 ^ 8) mod m64)))
        (Z.lor (Z.lor (Z.land (v / 2 ^ 8) 4278190080) (Z.land (v / 2 ^ 24) 16711680))
               (Z.lor (Z.land (v / 2 ^ 40) 65280) (v / 2 ^ 56))) = of_digits (be_bytes 8 v).
Proof.
  intros Hv. pose proof (of_digits_le 8 v Hv) as Hx. unfold be_bytes. pose proof (le_bytes_byte 8 v) as HB.
  destruct (le_bytes 8 v) as [|a [|b [|c [|d [|e [|f [|g [|h []]]]]]]]] eqn:EQ; try (apply (f_equal (@length Z)) in EQ; rewrite len_le_bytes in EQ; discriminate).
  clear EQ. rewrite !Forall_cons_iff in HB. destruct HB as (A & B & C & D & EE & F & G & H & _). cbn [rev app of_digits] in *. rewrite <- Hx.
  rewrite mask1, mask2, mask3 by auto. set (r := e + 256 * (f + 256 * (g + 256 * (h + 256 * 0)))) in *.
  set (w := a + 256 * (b + 256 * (c + 256 * (d + 256 * r)))) in *.
  assert (R : 0 <= r < 2 ^ 32) by (unfold r; lia).
  assert (W1 : w / 2 ^ 8 = b + 256 * (c + 256 * (d + 256 * r))) by (unfold w; clearbody r; change (2 ^ 8) with 256; zlia).
  assert (W2 : w / 2 ^ 24 = d + 256 * r) by (unfold w; clearbody r; change (2 ^ 24) with 16777216; zlia).
  assert (W3 : w / 2 ^ 40 = f + 256 * (g + 256 * (h + 256 * 0))).
  { change (2 ^ 40) with (2 ^ 32 * 256). rewrite <- Z.div_div by lia. replace (w / 2 ^ 32) with r by (unfold w; clearbody r; change (2 ^ 32) with 4294967296; zlia).
    unfold r. zlia. }
  assert (W4 : w / 2 ^ 56 = h).
  { change (2 ^ 56) with (2 ^ 40 * 65536). rewrite <- Z.div_div, W3 by lia. zlia. }
  assert (W0 : (w * 2 ^ 56) mod m64 = a * 2 ^ 56).
  { replace (w * 2 ^ 56) with (a * 2 ^ 56 + (b + 256 * (c + 256 * (d + 256 * r))) * m64) by (unfold w; lia). rewrite Z.mod_add by lia. apply Z.mod_small. lia. }
  rewrite W0, W1, W2, W3, W4. unfold r. rewrite mask3, mask2, mask1 by auto. clear - A B C D EE F G H.
  replace ((256 * b * 2 ^ 40) mod m64) with (b * 2 ^ 48) by (rewrite Z.mod_small; lia).
  replace ((65536 * c * 2 ^ 24) mod m64) with (c * 2 ^ 40) by (rewrite Z.mod_small; lia).
  replace ((16777216 * d * 2 ^ 8) mod m64) with (d * 2 ^ 32) by (rewrite Z.mod_small; lia).
  replace (16777216 * e) with (e * 2 ^ 24) by lia. replace (65536 * f) with (f * 2 ^ 16) by lia. replace (256 * g) with (g * 2 ^ 8) by lia.
  rewrite (lor_add h g 8) by lia. rewrite (lor_add (f * 2 ^ 16) e 24) by lia.
  replace (e * 2 ^ 24 + f * 2 ^ 16) with ((e * 2 ^ 8 + f) * 2 ^ 16) by lia. rewrite (lor_add _ _ 16) by lia.
  rewrite (lor_add (d * 2 ^ 32) c 40) by lia. rewrite (lor_add (b * 2 ^ 48) a 56) by lia.
  replace (a * 2 ^ 56 + b * 2 ^ 48) with ((a * 2 ^ 8 + b) * 2 ^ 48) by lia. rewrite (lor_add _ _ 48) by lia.
  replace ((a * 2 ^ 8 + b) * 2 ^ 48 + (c * 2 ^ 40 + d * 2 ^ 32)) with ((a * 2 ^ 24 + b * 2 ^ 16 + c * 2 ^ 8 + d) * 2 ^ 32) by lia.
  rewrite (lor_add _ _ 32) by lia. lia.
Qed.

Section Code.
Context {HS : Type} (E : env HS) (HE : has_std E).

Lemma store_i32_be_wp a v (st : store HS) (R : result HS -> Prop) : 0 <= v < m32 -> a + 4 <= msize (smem st) ->
  R (RVals [] (with_mem st (write_bytes (smem st) a (be_bytes 4 v)))) ->
  wpf E "stdlib.store-i32-be" [VI32 a; VI32 v] st R.
Proof.
  intros Hv Hb HR. wenter HE. wpure. eapply wp_store; [reflexivity|cbn [stbytes]; lia|]. cbn [stbytes]. rewrite Z.add_0_r. wnil. rconv HR.
  do 2 f_equal. symmetry. rewrite <- stn_be by exact Hv. f_equal. rewrite <- swap32 by exact Hv. reflexivity.
Qed.
Lemma store_i64_be_wp a v (st : store HS) (R : result HS -> Prop) : 0 <= v < m64 -> a + 8 <= msize (smem st) ->
  R (RVals [] (with_mem st (write_bytes (smem st) a (be_bytes 8 v)))) ->
  wpf E "stdlib.store-i64-be" [VI32 a; VI64 v] st R.
Proof.
  intros Hv Hb HR. wenter HE. wpure. eapply wp_store; [reflexivity|cbn [stbytes]; lia|]. cbn [stbytes]. rewrite Z.add_0_r. wnil. rconv HR.
  do 2 f_equal. symmetry. rewrite <- stn_be by exact Hv. f_equal. rewrite <- swap64 by exact Hv. reflexivity.
Qed.
End Code.
