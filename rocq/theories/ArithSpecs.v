(** * Bridging proofs for the integer properties C01-C07, C09, C10. *)
From Coq Require Import ZArith String List Bool Lia.
Import ListNotations.
From Verif Require Import Wasm Std StdEnv WasmLogic WasmTac Spec ZBits ArithProofs BitProofs MulProofs MulIntProofs
  DivProofs RootProofs PowProofs ArithFacts.
Open Scope Z_scope.

Section Proofs.
Context {HS : Type} (E : env HS) (HE : has_std E).
Implicit Types (st : store HS).

Lemma res_exact f args st ok vs c (P : Prop) :
  calls E f args st (res ok vs c st) -> (P <-> ok = true) ->
  (P -> returns E f args st vs) /\ (~ P -> aborts E f args st c).
Proof.
  intros H HP. eapply res_iff; eauto; [tauto|]. intros K. destruct ok; tauto.
Qed.

Lemma i_fits r : is_i128 r <-> (- h128 <=? r) && (r <? h128) = true.
Proof. unfold is_i128. change (2 ^ 127) with h128. lia. Qed.
Lemma u_fits r : 0 <= r -> is_u128 r <-> (r <? m128) = true.
Proof. unfold is_u128. rewrite pow128. lia. Qed.

Lemma p_add_uint a b : is_u128 a -> is_u128 b ->
  exact_or_aborts E "stdlib.add-uint" u128 is_u128 a b (a + b) err_overflow.
Proof. intros Ha Hb st. eapply res_exact; [apply add_uint_calls; auto|]. apply u_fits. unfold is_u128 in *; lia. Qed.
Lemma p_add_int a b : is_i128 a -> is_i128 b ->
  exact_or_aborts E "stdlib.add-int" i128 is_i128 a b (a + b) err_overflow.
Proof. intros Ha Hb st. eapply res_exact; [apply add_int_calls; auto|]. apply i_fits. Qed.
Lemma p_sub_int a b : is_i128 a -> is_i128 b ->
  exact_or_aborts E "stdlib.sub-int" i128 is_i128 a b (a - b) err_underflow.
Proof. intros Ha Hb st. eapply res_exact; [apply sub_int_calls; auto|]. apply i_fits. Qed.

Lemma p_sub_uint a b : is_u128 a -> is_u128 b ->
  ~ (a < b /\ b / 2 ^ 64 = 2 ^ 64 - 1 /\ a mod 2 ^ 64 < b mod 2 ^ 64) ->
  exact_or_aborts E "stdlib.sub-uint" u128 is_u128 a b (a - b) err_underflow.
Proof.
  intros Ha Hb Hn st. pose proof (sub_uint_calls E HE a b st Ha Hb) as H. unfold is_u128 in *.
  rewrite pow64, pow128 in *.
  assert (Hok : sub_uint_ok a b = (b <=? a)).
  { unfold sub_uint_ok. destruct (Z.leb_spec b a); [reflexivity|]. cbn [orb].
    destruct (Z.ltb_spec (a mod m64) (b mod m64)), (Z.eqb_spec (b / m64) (m64 - 1)); try reflexivity. tauto. }
  rewrite Hok in H. split; intros K.
  - destruct (Z.leb_spec b a); [|lia]. rewrite Z.mod_small in H by lia. exact H.
  - destruct (Z.leb_spec b a); [lia|]. exact H.
Qed.
(** the inputs excluded above do return a (wrong) value *)
Lemma p_sub_uint_wrong a b st : is_u128 a -> is_u128 b ->
  a < b -> b / 2 ^ 64 = 2 ^ 64 - 1 -> a mod 2 ^ 64 < b mod 2 ^ 64 ->
  returns E "stdlib.sub-uint" (u128 a ++ u128 b) st (u128 (a - b + 2 ^ 128)).
Proof.
  intros Ha Hb H1 H2 H3. pose proof (sub_uint_calls E HE a b st Ha Hb) as H. unfold is_u128 in *.
  rewrite pow64, pow128 in *. unfold res, sub_uint_ok in H.
  destruct (Z.ltb_spec (a mod m64) (b mod m64)); [|lia]. rewrite H2, Z.eqb_refl, orb_true_r in H.
  replace (a - b + m128) with ((a - b) mod m128); [exact H|]. clear - Ha Hb H1. zlia.
Qed.
Lemma p_sub_uint_refuted : inhabited (store HS) -> ~ sub_uint_correct E.
Proof.
  intros [st] H. destruct (H 0 (2 ^ 128 - 2 ^ 64 + 1) ltac:(split; reflexivity || discriminate)
    ltac:(split; reflexivity || discriminate) st) as [_ K].
  specialize (K ltac:(unfold is_u128; cbn; lia)).
  pose proof (p_sub_uint_wrong 0 (2 ^ 128 - 2 ^ 64 + 1) st ltac:(split; reflexivity || discriminate)
    ltac:(split; reflexivity || discriminate) ltac:(reflexivity) ltac:(reflexivity) ltac:(reflexivity)) as W.
  unfold returns, aborts in *. pose proof (calls_det _ _ _ _ _ _ W K) as X. discriminate X.
Qed.

Lemma p_mul_uint a b : is_u128 a -> is_u128 b ->
  exact_or_aborts E "stdlib.mul-uint" u128 is_u128 a b (a * b) err_overflow.
Proof. intros Ha Hb st. eapply res_exact; [apply mul_uint_calls; auto|]. apply u_fits. unfold is_u128 in *; nia. Qed.
Lemma p_mul_int a b : is_i128 a -> is_i128 b ->
  ~ (a * b = - 2 ^ 127 /\ a <> 1 /\ b <> 1) ->
  exact_or_aborts E "stdlib.mul-int" i128 is_i128 a b (a * b) err_overflow.
Proof.
  intros Ha Hb Hn st. eapply res_exact; [apply mul_int_calls; auto|]. unfold is_i128, mul_int_ok in *.
  change (2 ^ 127) with h128 in *.
  destruct (Z.eqb_spec a 1) as [->|]; [split; [auto|lia]|]. destruct (Z.eqb_spec b 1) as [->|]; [split; [auto|lia]|]. cbn [orb]. lia.
Qed.
Lemma p_mul_int_wrong a b st : is_i128 a -> is_i128 b ->
  a * b = - 2 ^ 127 -> a <> 1 -> b <> 1 -> aborts E "stdlib.mul-int" (i128 a ++ i128 b) st err_overflow.
Proof.
  intros Ha Hb H1 H2 H3. pose proof (mul_int_calls E HE a b st Ha Hb) as H. unfold res, mul_int_ok in H.
  change (2 ^ 127) with h128 in *.
  destruct (Z.eqb_spec a 1) as [->|]; [lia|]. destruct (Z.eqb_spec b 1) as [->|]; [lia|].
  rewrite H1 in H. exact H.
Qed.
Lemma p_mul_int_refuted : inhabited (store HS) -> ~ mul_int_correct E.
Proof.
  intros [st] H. destruct (H (- 2 ^ 126) 2 ltac:(split; reflexivity || discriminate)
    ltac:(split; reflexivity || discriminate) st) as [K _].
  specialize (K ltac:(unfold is_i128; cbn; lia)).
  pose proof (p_mul_int_wrong (- 2 ^ 126) 2 st ltac:(split; reflexivity || discriminate)
    ltac:(split; reflexivity || discriminate) ltac:(reflexivity) ltac:(discriminate) ltac:(discriminate)) as W.
  unfold returns, aborts in *. pose proof (calls_det _ _ _ _ _ _ W K) as X. discriminate X.
Qed.

Lemma p_div_uint a b st : is_u128 a -> is_u128 b ->
  (b <> 0 -> returns E "stdlib.div-uint" (u128 a ++ u128 b) st (u128 (a / b))) /\
  (b = 0 -> aborts E "stdlib.div-uint" (u128 a ++ u128 b) st err_div_zero).
Proof. intros Ha Hb. pose proof (div_uint_calls E HE a b st Ha Hb) as H. destruct (Z.eqb_spec b 0); split; intros; try lia; exact H. Qed.
Lemma p_mod_uint a b st : is_u128 a -> is_u128 b ->
  (b <> 0 -> returns E "stdlib.mod-uint" (u128 a ++ u128 b) st (u128 (a mod b))) /\
  (b = 0 -> aborts E "stdlib.mod-uint" (u128 a ++ u128 b) st err_div_zero).
Proof. intros Ha Hb. pose proof (mod_uint_calls E HE a b st Ha Hb) as H. destruct (Z.eqb_spec b 0); split; intros; try lia; exact H. Qed.
Lemma p_div_int a b st : is_i128 a -> is_i128 b ->
  (b <> 0 -> ~ (a = - 2 ^ 127 /\ b = -1) -> returns E "stdlib.div-int" (i128 a ++ i128 b) st (i128 (Z.quot a b))) /\
  (a = - 2 ^ 127 -> b = -1 -> aborts E "stdlib.div-int" (i128 a ++ i128 b) st err_overflow) /\
  (b = 0 -> aborts E "stdlib.div-int" (i128 a ++ i128 b) st err_div_zero).
Proof.
  intros Ha Hb. pose proof (div_int_calls E HE a b st Ha Hb) as H. change (2 ^ 127) with h128.
  destruct (Z.eqb_spec b 0); [repeat split; intros; try lia; exact H|].
  destruct (Z.eqb_spec a (- h128)), (Z.eqb_spec b (-1)); cbn [andb] in H; repeat split; intros; try lia; exact H.
Qed.
Lemma p_mod_int a b st : is_i128 a -> is_i128 b ->
  (b <> 0 -> returns E "stdlib.mod-int" (i128 a ++ i128 b) st (i128 (Z.rem a b))) /\
  (b = 0 -> aborts E "stdlib.mod-int" (i128 a ++ i128 b) st err_div_zero).
Proof. intros Ha Hb. pose proof (mod_int_calls E HE a b st Ha Hb) as H. destruct (Z.eqb_spec b 0); split; intros; try lia; exact H. Qed.

Lemma p_pow_uint a b : is_u128 a -> is_u128 b ->
  exact_or_aborts E "stdlib.pow-uint" u128 is_u128 a b (a ^ b) (if 127 <? b then err_pow else err_overflow).
Proof.
  intros Ha Hb st. eapply res_exact; [apply pow_uint_calls; auto|]. apply u_fits. unfold is_u128 in *.
  apply Z.pow_nonneg; lia.
Qed.

Lemma pow_m1 b : 0 <= b -> (-1) ^ b = 1 \/ (-1) ^ b = -1.
Proof.
  intros Hb. rewrite (pow_neg_sign (-1) b) by lia. change (Z.abs (-1)) with 1. rewrite Z.pow_1_l by lia.
  destruct (b mod 2 =? 1); lia.
Qed.
Lemma pow_big_i a b : 2 <= Z.abs a -> 127 < b \/ (126 < b /\ 0 <= a) -> ~ is_i128 (a ^ b).
Proof.
  intros Ha Hb K. unfold is_i128 in K.
  assert (P : 2 ^ b <= Z.abs (a ^ b)) by (rewrite Z.abs_pow by lia; apply Z.pow_le_mono_l; lia).
  assert (2 ^ 127 <= 2 ^ b) by (apply Z.pow_le_mono_r; lia).
  destruct Hb as [Hb|[Hb Hs]].
  - assert (2 ^ 128 <= 2 ^ b) by (apply Z.pow_le_mono_r; lia). rewrite pow128 in *. change (2 ^ 127) with h128 in *. lia.
  - assert (0 <= a ^ b) by (apply Z.pow_nonneg; lia). change (2 ^ 127) with h128 in *. lia.
Qed.

Lemma p_pow_int a b : is_i128 a -> is_i128 b -> 0 <= b -> ~ (a = -1 /\ 127 < b) ->
  exact_or_aborts E "stdlib.pow-int" i128 is_i128 a b (a ^ b)
    (if (127 <? b) || ((126 <? b) && (0 <=? a)) then err_pow else err_overflow).
Proof.
  intros Ha Hb H0 Hn st. pose proof (pow_int_calls E HE a b st Ha Hb) as H. unfold pow_int_res in H.
  assert (F1 : is_i128 1) by (split; [discriminate|reflexivity]).
  destruct (Z.eqb_spec b 0) as [->|].
  { rewrite Z.pow_0_r. split; intros; [exact H|tauto]. }
  destruct ((a =? 0) || (a =? 1) || (b =? 1)) eqn:E1.
  { assert (Ep : a ^ b = a).
    { assert (a = 0 \/ a = 1 \/ b = 1) as [->| [->| ->]] by lia;
      [apply Z.pow_0_l; lia|apply Z.pow_1_l; lia|apply Z.pow_1_r]. }
    rewrite Ep. split; intros; [exact H|tauto]. }
  destruct (Z.ltb_spec b 0); [lia|]. cbn [orb] in H.
  destruct ((127 <? b) || ((126 <? b) && (0 <=? a))) eqn:E2.
  { split; intros K; [|exact H]. exfalso. revert K. apply pow_big_i; lia. }
  pose proof (i_fits (a ^ b)) as F.
  destruct ((- h128 <=? a ^ b) && (a ^ b <? h128)); split; intros K; try exact H; tauto || (exfalso; apply F in K; discriminate).
Qed.
Lemma p_pow_int_neg a b st : is_i128 a -> is_i128 b -> b < 0 ->
  (a <> 0 -> a <> 1 -> aborts E "stdlib.pow-int" (i128 a ++ i128 b) st err_pow) /\
  (a = 0 \/ a = 1 -> returns E "stdlib.pow-int" (i128 a ++ i128 b) st (i128 a)).
Proof.
  intros Ha Hb H0. pose proof (pow_int_calls E HE a b st Ha Hb) as H. unfold pow_int_res in H.
  destruct (Z.eqb_spec b 0); [lia|]. destruct (Z.eqb_spec b 1); [lia|]. rewrite orb_false_r in H.
  destruct (Z.ltb_spec b 0); [|lia]. cbn [orb] in H.
  destruct (Z.eqb_spec a 0), (Z.eqb_spec a 1); cbn [orb] in H; split; intros; try lia; exact H.
Qed.
Lemma p_pow_int_wrong b st : is_i128 b -> 127 < b -> aborts E "stdlib.pow-int" (i128 (-1) ++ i128 b) st err_pow.
Proof.
  intros Hb H0. pose proof (pow_int_calls E HE (-1) b st ltac:(split; reflexivity || discriminate) Hb) as H. unfold pow_int_res in H.
  destruct (Z.eqb_spec b 0); [lia|]. destruct (Z.eqb_spec b 1); [lia|]. cbn [Z.eqb orb] in H.
  destruct (Z.ltb_spec 127 b); [|lia]. rewrite orb_true_r in H. exact H.
Qed.
Lemma p_pow_int_refuted : inhabited (store HS) -> ~ pow_int_correct E.
Proof.
  intros [st] H. destruct (H (-1) 128 ltac:(split; reflexivity || discriminate)
    ltac:(split; reflexivity || discriminate) ltac:(lia) st) as [K _].
  specialize (K ltac:(change ((-1) ^ 128) with 1; unfold is_i128; cbn; lia)).
  pose proof (p_pow_int_wrong 128 st ltac:(split; reflexivity || discriminate) ltac:(reflexivity)) as W.
  unfold returns, aborts in *. pose proof (calls_det _ _ _ _ _ _ W K) as X. discriminate X.
Qed.

Lemma p_log2_uint a st : is_u128 a ->
  (forall k, 2 ^ k <= a < 2 ^ (k + 1) -> 0 <= k -> returns E "stdlib.log2-uint" (u128 a) st (u128 k)) /\
  (a = 0 -> aborts E "stdlib.log2-uint" (u128 a) st err_log).
Proof.
  intros Ha. pose proof (log2_uint_calls E HE a st Ha) as H. split.
  - intros k Hk H0. assert (0 < 2 ^ k) by (apply Z.pow_pos_nonneg; lia). destruct (Z.eqb_spec a 0); [lia|].
    rewrite (Z.log2_unique a k) in H by (unfold Z.succ; lia). exact H.
  - intros ->. exact H.
Qed.
Lemma p_log2_int a st : is_i128 a ->
  (forall k, 2 ^ k <= a < 2 ^ (k + 1) -> 0 <= k -> returns E "stdlib.log2-int" (i128 a) st (i128 k)) /\
  (a <= 0 -> aborts E "stdlib.log2-int" (i128 a) st err_log).
Proof.
  intros Ha. pose proof (log2_int_calls E HE a st Ha) as H. split.
  - intros k Hk H0. assert (0 < 2 ^ k) by (apply Z.pow_pos_nonneg; lia). destruct (Z.leb_spec a 0); [lia|].
    rewrite (Z.log2_unique a k) in H by (unfold Z.succ; lia). exact H.
  - intros K. destruct (Z.leb_spec a 0); [|lia]. exact H.
Qed.
Lemma p_sqrti_uint a st : is_u128 a ->
  exists r, 0 <= r /\ r * r <= a < (r + 1) * (r + 1) /\ returns E "stdlib.sqrti-uint" (u128 a) st (u128 r).
Proof.
  intros Ha. exists (Z.sqrt a). pose proof (Z.sqrt_spec a ltac:(unfold is_u128 in *; lia)) as S.
  split; [apply Z.sqrt_nonneg|]. split; [exact S|]. apply sqrti_uint_calls; auto.
Qed.
Lemma p_sqrti_int a st : is_i128 a ->
  (0 <= a -> exists r, 0 <= r /\ r * r <= a < (r + 1) * (r + 1) /\ returns E "stdlib.sqrti-int" (i128 a) st (i128 r)) /\
  (a < 0 -> aborts E "stdlib.sqrti-int" (i128 a) st err_sqrt).
Proof.
  intros Ha. pose proof (sqrti_int_calls E HE a st Ha) as H. split; intros K.
  - exists (Z.sqrt a). pose proof (Z.sqrt_spec a K) as S. split; [apply Z.sqrt_nonneg|]. split; [exact S|].
    destruct (Z.ltb_spec a 0); [lia|]. exact H.
  - destruct (Z.ltb_spec a 0); [|lia]. exact H.
Qed.

Lemma p_to_uint a st : is_i128 a ->
  (0 <= a -> returns E "stdlib.to-uint" (i128 a) st (u128 a)) /\
  (a < 0 -> aborts E "stdlib.to-uint" (i128 a) st err_underflow).
Proof. intros Ha. eapply res_iff; [apply to_uint_calls; auto|lia|lia]. Qed.
Lemma p_to_int a st : is_u128 a ->
  (a < 2 ^ 127 -> returns E "stdlib.to-int" (u128 a) st (i128 a)) /\
  (2 ^ 127 <= a -> aborts E "stdlib.to-int" (u128 a) st err_overflow).
Proof. intros Ha. change (2 ^ 127) with h128. eapply res_iff; [apply to_int_calls; auto|lia|lia]. Qed.

Lemma vb b : [VI32 (b2z b)] = vbool b. Proof. destruct b; reflexivity. Qed.
Lemma p_cmp_uint op rel a b st : is_u128 a -> is_u128 b -> In (op, rel) cmps ->
  returns E ("stdlib." ++ op ++ "-uint") (u128 a ++ u128 b) st (vbool (rel a b)).
Proof.
  intros Ha Hb H. destruct (cmp_uint_calls E HE a b st Ha Hb) as (H1 & H2 & H3 & H4).
  rewrite !vb in *. unfold cmps in H. cbn [In] in H.
  destruct H as [H|[H|[H|[H|[]]]]]; injection H as <- <-; assumption.
Qed.
Lemma p_cmp_int op rel a b st : is_i128 a -> is_i128 b -> In (op, rel) cmps ->
  returns E ("stdlib." ++ op ++ "-int") (i128 a ++ i128 b) st (vbool (rel a b)).
Proof.
  intros Ha Hb H. destruct (cmp_int_calls E HE a b st Ha Hb) as (H1 & H2 & H3 & H4).
  rewrite !vb in *. unfold cmps in H. cbn [In] in H.
  destruct H as [H|[H|[H|[H|[]]]]]; injection H as <- <-; assumption.
Qed.
End Proofs.
