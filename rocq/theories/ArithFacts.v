(** * From the limb-level facts to statements about Clarity integers. *)
From Coq Require Import ZArith String List Bool Lia.
Import ListNotations.
From Verif Require Import Wasm Std StdEnv WasmLogic WasmTac Spec ZBits ArithProofs BitProofs MulProofs MulIntProofs
  DivProofs RootProofs PowProofs.
Open Scope Z_scope.

Lemma u128_elim (P : list val -> Z -> Prop) :
  (forall l h, lim l -> lim h -> P [VI64 l; VI64 h] (val128 l h)) -> forall a, is_u128 a -> P (u128 a) a.
Proof.
  intros H a Ha. unfold is_u128 in Ha. rewrite pow128 in Ha.
  pose proof (H (a mod m64) (a / m64) ltac:(unfold lim; zlia) ltac:(unfold lim; zlia)) as K.
  replace (val128 (a mod m64) (a / m64)) with a in K by zlia. exact K.
Qed.

Lemma i128_elim (P : list val -> Z -> Prop) :
  (forall l h, lim l -> lim h -> P [VI64 l; VI64 h] (sval128 l h)) -> forall a, is_i128 a -> P (i128 a) a.
Proof.
  intros H a Ha. unfold is_i128 in Ha. change (2 ^ 127) with h128 in Ha. unfold i128, u128. rewrite pow128, pow64.
  assert (L1 : lim (a mod m128 mod m64)) by (unfold lim; zlia).
  assert (L2 : lim (a mod m128 / m64)) by (unfold lim; zlia).
  pose proof (H _ _ L1 L2) as K. rewrite sval_alt in K by auto.
  replace (if h64 <=? a mod m128 / m64 then _ else _) with a in K; [exact K|].
  clear - Ha. destruct (Z.leb_spec h64 (a mod m128 / m64)); zlia.
Qed.

Section Facts.
Context {HS : Type} (E : env HS) (HE : has_std E).
Implicit Types (st : store HS) (R : result HS -> Prop).

Lemma calls_of_wpf f args st r : wpf E f args st (fun x => x = r) -> calls E f args st r.
Proof. apply wpf_calls. Qed.

Definition res (ok : bool) (vs : list val) (c : Z) st : result HS := if ok then RVals vs st else err c st.

Lemma res_iff f args st ok vs c (P Q : Prop) :
  calls E f args st (res ok vs c st) ->
  (P -> ok = true) -> (Q -> ok = false) ->
  (P -> returns E f args st vs) /\ (Q -> aborts E f args st c).
Proof. intros H H1 H2. split; intros K; unfold returns, aborts; [rewrite (H1 K) in H|rewrite (H2 K) in H]; exact H. Qed.

(** lift a limb-level lemma over two unsigned / signed arguments *)
Lemma lift_uu f (g : Z -> Z -> store HS -> result HS) :
  (forall al ah bl bh st R, lim al -> lim ah -> lim bl -> lim bh ->
     R (g (val128 al ah) (val128 bl bh) st) -> wpf E f [VI64 al; VI64 ah; VI64 bl; VI64 bh] st R) ->
  forall a b st, is_u128 a -> is_u128 b -> calls E f (u128 a ++ u128 b) st (g a b st).
Proof.
  intros H a b st Ha Hb. revert a Ha. apply (u128_elim (fun va a => calls E f (va ++ u128 b) st (g a b st))).
  intros al ah H1 H2. revert b Hb. apply (u128_elim (fun vb b => calls E f (_ ++ vb) st (g _ b st))).
  intros bl bh H3 H4. apply calls_of_wpf. apply H; auto.
Qed.
Lemma lift_ii f (g : Z -> Z -> store HS -> result HS) :
  (forall al ah bl bh st R, lim al -> lim ah -> lim bl -> lim bh ->
     R (g (sval128 al ah) (sval128 bl bh) st) -> wpf E f [VI64 al; VI64 ah; VI64 bl; VI64 bh] st R) ->
  forall a b st, is_i128 a -> is_i128 b -> calls E f (i128 a ++ i128 b) st (g a b st).
Proof.
  intros H a b st Ha Hb. revert a Ha. apply (i128_elim (fun va a => calls E f (va ++ i128 b) st (g a b st))).
  intros al ah H1 H2. revert b Hb. apply (i128_elim (fun vb b => calls E f (_ ++ vb) st (g _ b st))).
  intros bl bh H3 H4. apply calls_of_wpf. apply H; auto.
Qed.
Lemma lift_u f (g : Z -> store HS -> result HS) :
  (forall al ah st R, lim al -> lim ah -> R (g (val128 al ah) st) -> wpf E f [VI64 al; VI64 ah] st R) ->
  forall a st, is_u128 a -> calls E f (u128 a) st (g a st).
Proof.
  intros H a st Ha. revert a Ha. apply (u128_elim (fun va a => calls E f va st (g a st))).
  intros al ah H1 H2. apply calls_of_wpf. apply H; auto.
Qed.
Lemma lift_i f (g : Z -> store HS -> result HS) :
  (forall al ah st R, lim al -> lim ah -> R (g (sval128 al ah) st) -> wpf E f [VI64 al; VI64 ah] st R) ->
  forall a st, is_i128 a -> calls E f (i128 a) st (g a st).
Proof.
  intros H a st Ha. revert a Ha. apply (i128_elim (fun va a => calls E f va st (g a st))).
  intros al ah H1 H2. apply calls_of_wpf. apply H; auto.
Qed.
Lemma lift_iu f (g : Z -> Z -> store HS -> result HS) :
  (forall al ah bl bh st R, lim al -> lim ah -> lim bl -> lim bh ->
     R (g (sval128 al ah) (val128 bl bh) st) -> wpf E f [VI64 al; VI64 ah; VI64 bl; VI64 bh] st R) ->
  forall a b st, is_i128 a -> is_u128 b -> calls E f (i128 a ++ u128 b) st (g a b st).
Proof.
  intros H a b st Ha Hb. revert a Ha. apply (i128_elim (fun va a => calls E f (va ++ u128 b) st (g a b st))).
  intros al ah H1 H2. revert b Hb. apply (u128_elim (fun vb b => calls E f (_ ++ vb) st (g _ b st))).
  intros bl bh H3 H4. apply calls_of_wpf. apply H; auto.
Qed.

(** limbs of sums and differences *)
Lemma add_limbs al ah bl bh : lim al -> lim ah -> lim bl -> lim bh ->
  [VI64 ((al + bl) mod m64); VI64 ((ah + bh + (al + bl) / m64) mod m64)] = u128 ((val128 al ah + val128 bl bh) mod m128).
Proof.
  unfold lim. intros. unfold u128. rewrite pow64.
  set (x := al + bl). replace (val128 al ah + val128 bl bh) with (x + m64 * (ah + bh)) by (subst x; ring).
  set (y := ah + bh). assert (Hx : 0 <= x) by (subst x; lia). clearbody x y. req; zlia.
Qed.
Lemma sub_limbs al ah bl bh : lim al -> lim ah -> lim bl -> lim bh ->
  [VI64 ((al - bl) mod m64); VI64 ((ah - bh + (al - bl) / m64) mod m64)] = u128 ((val128 al ah - val128 bl bh) mod m128).
Proof.
  unfold lim. intros. unfold u128. rewrite pow64.
  set (x := al - bl). replace (val128 al ah - val128 bl bh) with (x + m64 * (ah - bh)) by (subst x; ring).
  set (y := ah - bh). clearbody x y. req; zlia.
Qed.
Lemma sval_val l h : lim l -> lim h -> exists k, sval128 l h = val128 l h + k * m128.
Proof. intros. rewrite sval_alt by auto. destruct (h64 <=? h); [exists (-1)|exists 0]; lia. Qed.
Lemma add_limbs_i al ah bl bh : lim al -> lim ah -> lim bl -> lim bh ->
  [VI64 ((al + bl) mod m64); VI64 ((ah + bh + (al + bl) / m64) mod m64)] = i128 (sval128 al ah + sval128 bl bh).
Proof.
  intros. rewrite add_limbs by auto. unfold i128. rewrite pow128. f_equal.
  destruct (sval_val al ah) as (k & ->); auto. destruct (sval_val bl bh) as (j & ->); auto.
  rewrite <- (Z.mod_add _ (k + j) m128) by lia. f_equal. ring.
Qed.
Lemma sub_limbs_i al ah bl bh : lim al -> lim ah -> lim bl -> lim bh ->
  [VI64 ((al - bl) mod m64); VI64 ((ah - bh + (al - bl) / m64) mod m64)] = i128 (sval128 al ah - sval128 bl bh).
Proof.
  intros. rewrite sub_limbs by auto. unfold i128. rewrite pow128. f_equal.
  destruct (sval_val al ah) as (k & ->); auto. destruct (sval_val bl bh) as (j & ->); auto.
  rewrite <- (Z.mod_add _ (k - j) m128) by lia. f_equal. ring.
Qed.

Lemma add_uint_calls a b st : is_u128 a -> is_u128 b ->
  calls E "stdlib.add-uint" (u128 a ++ u128 b) st (res (a + b <? m128) (u128 (a + b)) 0 st).
Proof.
  apply (lift_uu _ (fun a b st => res (a + b <? m128) (u128 (a + b)) 0 st)). clear a b st.
  intros al ah bl bh st R H1 H2 H3 H4 H. apply add_uint_wp; auto. unfold res in H. rsplit H; [|exact H].
  pose proof (add_limbs al ah bl bh H1 H2 H3 H4) as K.
  rewrite (Z.mod_small (val128 al ah + val128 bl bh)) in K by (unfold lim in *; lia). rewrite <- K in H.
  rewrite (Z.mod_small (ah + bh + _)) in H; [exact H|]. unfold lim in *; zlia.
Qed.
Lemma add_int_calls a b st : is_i128 a -> is_i128 b ->
  calls E "stdlib.add-int" (i128 a ++ i128 b) st (res ((- h128 <=? a + b) && (a + b <? h128)) (i128 (a + b)) 0 st).
Proof.
  apply (lift_ii _ (fun a b st => res ((- h128 <=? a + b) && (a + b <? h128)) (i128 (a + b)) 0 st)). clear a b st.
  intros al ah bl bh st R H1 H2 H3 H4 H. apply add_int_wp; auto. unfold res in H. rewrite add_limbs_i by auto. exact H.
Qed.
Lemma sub_int_calls a b st : is_i128 a -> is_i128 b ->
  calls E "stdlib.sub-int" (i128 a ++ i128 b) st (res ((- h128 <=? a - b) && (a - b <? h128)) (i128 (a - b)) 1 st).
Proof.
  apply (lift_ii _ (fun a b st => res ((- h128 <=? a - b) && (a - b <? h128)) (i128 (a - b)) 1 st)). clear a b st.
  intros al ah bl bh st R H1 H2 H3 H4 H. apply sub_int_wp; auto. unfold res in H. rewrite sub_limbs_i by auto. exact H.
Qed.
(** what [sub-uint] really does, including the missed underflow *)
Definition sub_uint_ok (a b : Z) : bool :=
  (b <=? a) || ((a mod m64 <? b mod m64) && (b / m64 =? m64 - 1)).
Lemma sub_uint_calls a b st : is_u128 a -> is_u128 b ->
  calls E "stdlib.sub-uint" (u128 a ++ u128 b) st (res (sub_uint_ok a b) (u128 ((a - b) mod m128)) 1 st).
Proof.
  apply (lift_uu _ (fun a b st => res (sub_uint_ok a b) (u128 ((a - b) mod m128)) 1 st)). clear a b st.
  intros al ah bl bh st R H1 H2 H3 H4 H. apply sub_uint_wp; auto. unfold res, sub_uint_ok in H. rewrite sub_limbs by auto.
  replace (val128 al ah mod m64) with al in H by (unfold lim in *; zlia).
  replace (val128 bl bh mod m64) with bl in H by (unfold lim in *; zlia).
  replace (val128 bl bh / m64) with bh in H by (unfold lim in *; zlia). exact H.
Qed.
Lemma mul_uint_calls a b st : is_u128 a -> is_u128 b ->
  calls E "stdlib.mul-uint" (u128 a ++ u128 b) st (res (a * b <? m128) (u128 (a * b)) 0 st).
Proof. apply (lift_uu _ (fun a b st => res (a * b <? m128) (u128 (a * b)) 0 st)). intros. apply mul_uint_wp; auto. Qed.
Lemma mul_int_calls a b st : is_i128 a -> is_i128 b ->
  calls E "stdlib.mul-int" (i128 a ++ i128 b) st (res (mul_int_ok a b) (i128 (a * b)) 0 st).
Proof. apply (lift_ii _ (fun a b st => res (mul_int_ok a b) (i128 (a * b)) 0 st)). intros. apply mul_int_wp; auto. Qed.
Lemma div_uint_calls a b st : is_u128 a -> is_u128 b ->
  calls E "stdlib.div-uint" (u128 a ++ u128 b) st (if b =? 0 then err 2 st else RVals (u128 (a / b)) st).
Proof. apply (lift_uu _ (fun a b st => if b =? 0 then err 2 st else RVals (u128 (a / b)) st)). intros. apply div_uint_wp; auto. Qed.
Lemma mod_uint_calls a b st : is_u128 a -> is_u128 b ->
  calls E "stdlib.mod-uint" (u128 a ++ u128 b) st (if b =? 0 then err 2 st else RVals (u128 (a mod b)) st).
Proof. apply (lift_uu _ (fun a b st => if b =? 0 then err 2 st else RVals (u128 (a mod b)) st)). intros. apply mod_uint_wp; auto. Qed.
Lemma div_int_calls a b st : is_i128 a -> is_i128 b ->
  calls E "stdlib.div-int" (i128 a ++ i128 b) st
   (if b =? 0 then err 2 st else if (a =? - h128) && (b =? -1) then err 0 st else RVals (i128 (Z.quot a b)) st).
Proof. apply (lift_ii _ (fun a b st => if b =? 0 then err 2 st else if (a =? - h128) && (b =? -1) then err 0 st else RVals (i128 (Z.quot a b)) st)).
  intros. apply div_int_wp; auto. Qed.
Lemma mod_int_calls a b st : is_i128 a -> is_i128 b ->
  calls E "stdlib.mod-int" (i128 a ++ i128 b) st (if b =? 0 then err 2 st else RVals (i128 (Z.rem a b)) st).
Proof. apply (lift_ii _ (fun a b st => if b =? 0 then err 2 st else RVals (i128 (Z.rem a b)) st)). intros. apply mod_int_wp; auto. Qed.
Lemma pow_uint_calls a b st : is_u128 a -> is_u128 b ->
  calls E "stdlib.pow-uint" (u128 a ++ u128 b) st (res (a ^ b <? m128) (u128 (a ^ b)) (if 127 <? b then 8 else 0) st).
Proof. apply (lift_uu _ (fun a b st => res (a ^ b <? m128) (u128 (a ^ b)) (if 127 <? b then 8 else 0) st)). intros. apply pow_uint_wp; auto. Qed.

Definition pow_int_res (a b : Z) st : result HS :=
  if (b =? 0) then RVals (i128 1) st
     else if (a =? 0) || (a =? 1) || (b =? 1) then RVals (i128 a) st
     else if (b <? 0) || (127 <? b) || ((126 <? b) && (0 <=? a)) then err 8 st
     else if (- h128 <=? a ^ b) && (a ^ b <? h128) then RVals (i128 (a ^ b)) st
     else err 0 st.
Lemma pow_int_calls a b st : is_i128 a -> is_i128 b ->
  calls E "stdlib.pow-int" (i128 a ++ i128 b) st (pow_int_res a b st).
Proof. apply (lift_ii _ pow_int_res). intros. apply pow_int_wp; auto. Qed.

Lemma log2_uint_calls a st : is_u128 a ->
  calls E "stdlib.log2-uint" (u128 a) st (if a =? 0 then err 3 st else RVals (u128 (Z.log2 a)) st).
Proof. apply (lift_u _ (fun a st => if a =? 0 then err 3 st else RVals (u128 (Z.log2 a)) st)). intros. apply log2_uint_wp; auto. Qed.
Lemma log2_int_calls a st : is_i128 a ->
  calls E "stdlib.log2-int" (i128 a) st (if a <=? 0 then err 3 st else RVals (i128 (Z.log2 a)) st).
Proof.
  apply (lift_i _ (fun a st => if a <=? 0 then err 3 st else RVals (i128 (Z.log2 a)) st)). clear a st.
  intros al ah st R H1 H2 H. apply log2_int_wp; auto. rsplit H; [exact H|]. unfold i128 in H.
  pose proof (sval_range al ah H1 H2). pose proof (Z.log2_nonneg (sval128 al ah)).
  assert (Z.log2 (sval128 al ah) < 128) by (apply Z.log2_lt_pow2; rewrite ?pow128; lia).
  rewrite pow128, Z.mod_small in H by lia. exact H.
Qed.
Lemma sqrti_uint_calls a st : is_u128 a ->
  calls E "stdlib.sqrti-uint" (u128 a) st (RVals (u128 (Z.sqrt a)) st).
Proof. apply (lift_u _ (fun a st => RVals (u128 (Z.sqrt a)) st)). intros. apply sqrti_uint_wp; auto. Qed.
Lemma sqrti_int_calls a st : is_i128 a ->
  calls E "stdlib.sqrti-int" (i128 a) st (if a <? 0 then err 4 st else RVals (i128 (Z.sqrt a)) st).
Proof.
  apply (lift_i _ (fun a st => if a <? 0 then err 4 st else RVals (i128 (Z.sqrt a)) st)). clear a st.
  intros al ah st R H1 H2 H. apply sqrti_int_wp; auto. rsplit H; [exact H|]. unfold i128 in H.
  pose proof (sval_range al ah H1 H2). pose proof (Z.sqrt_nonneg (sval128 al ah)).
  pose proof (Z.sqrt_le_lin (sval128 al ah)).
  rewrite pow128, Z.mod_small in H by lia. exact H.
Qed.

Lemma cmp_uint_calls a b st : is_u128 a -> is_u128 b ->
  calls E "stdlib.lt-uint" (u128 a ++ u128 b) st (RVals [VI32 (b2z (a <? b))] st) /\
  calls E "stdlib.gt-uint" (u128 a ++ u128 b) st (RVals [VI32 (b2z (a >? b))] st) /\
  calls E "stdlib.le-uint" (u128 a ++ u128 b) st (RVals [VI32 (b2z (a <=? b))] st) /\
  calls E "stdlib.ge-uint" (u128 a ++ u128 b) st (RVals [VI32 (b2z (a >=? b))] st).
Proof.
  intros Ha Hb. repeat split.
  - apply (lift_uu _ (fun a b st => RVals [VI32 (b2z (a <? b))] st)); auto. intros. apply lt_uint_wp; auto.
  - apply (lift_uu _ (fun a b st => RVals [VI32 (b2z (a >? b))] st)); auto. intros. apply gt_uint_wp; auto.
  - apply (lift_uu _ (fun a b st => RVals [VI32 (b2z (a <=? b))] st)); auto. intros. apply le_uint_wp; auto.
  - apply (lift_uu _ (fun a b st => RVals [VI32 (b2z (a >=? b))] st)); auto. intros. apply ge_uint_wp; auto.
Qed.
Lemma cmp_int_calls a b st : is_i128 a -> is_i128 b ->
  calls E "stdlib.lt-int" (i128 a ++ i128 b) st (RVals [VI32 (b2z (a <? b))] st) /\
  calls E "stdlib.gt-int" (i128 a ++ i128 b) st (RVals [VI32 (b2z (a >? b))] st) /\
  calls E "stdlib.le-int" (i128 a ++ i128 b) st (RVals [VI32 (b2z (a <=? b))] st) /\
  calls E "stdlib.ge-int" (i128 a ++ i128 b) st (RVals [VI32 (b2z (a >=? b))] st).
Proof.
  intros Ha Hb. repeat split.
  - apply (lift_ii _ (fun a b st => RVals [VI32 (b2z (a <? b))] st)); auto. intros. apply lt_int_wp; auto.
  - apply (lift_ii _ (fun a b st => RVals [VI32 (b2z (a >? b))] st)); auto. intros. apply gt_int_wp; auto.
  - apply (lift_ii _ (fun a b st => RVals [VI32 (b2z (a <=? b))] st)); auto. intros. apply le_int_wp; auto.
  - apply (lift_ii _ (fun a b st => RVals [VI32 (b2z (a >=? b))] st)); auto. intros. apply ge_int_wp; auto.
Qed.

Lemma land_nn a b : 0 <= a < m64 -> 0 <= b < m64 -> lim (Z.land a b).
Proof. intros. unfold lim. rewrite <- pow64. apply land_bound; rewrite ?pow64; lia. Qed.
Lemma lor_nn a b : 0 <= a < m64 -> 0 <= b < m64 -> lim (Z.lor a b).
Proof. intros. unfold lim. rewrite <- pow64. apply lor_bound; rewrite ?pow64; lia. Qed.
Lemma lxor_nn a b : 0 <= a < m64 -> 0 <= b < m64 -> lim (Z.lxor a b).
Proof. intros. unfold lim. rewrite <- pow64. apply lxor_bound; rewrite ?pow64; lia. Qed.

Ltac bitu W S B :=
  intros; apply W; auto; match goal with H : ?R _ |- ?R _ => rewrite <- pow64, S in H by (rewrite ?pow64; lia || assumption);
    rewrite pow64, u128_limbs in H by (apply B; assumption); exact H end.

Lemma bit_and_uint_calls a b st : is_u128 a -> is_u128 b ->
  calls E "stdlib.bit-and" (u128 a ++ u128 b) st (RVals (u128 (Z.land a b)) st).
Proof.
  apply (lift_uu _ (fun a b st => RVals (u128 (Z.land a b)) st)). bitu (@bit_and_wp HS) land_split land_nn.
Qed.
Lemma bit_or_uint_calls a b st : is_u128 a -> is_u128 b ->
  calls E "stdlib.bit-or" (u128 a ++ u128 b) st (RVals (u128 (Z.lor a b)) st).
Proof.
  apply (lift_uu _ (fun a b st => RVals (u128 (Z.lor a b)) st)). bitu (@bit_or_wp HS) lor_split lor_nn.
Qed.
Lemma bit_xor_uint_calls a b st : is_u128 a -> is_u128 b ->
  calls E "stdlib.bit-xor" (u128 a ++ u128 b) st (RVals (u128 (Z.lxor a b)) st).
Proof.
  apply (lift_uu _ (fun a b st => RVals (u128 (Z.lxor a b)) st)). bitu (@bit_xor_wp HS) lxor_split lxor_nn.
Qed.

(** bitwise operations commute with taking the low 128 bits *)
Lemma mod_land a b n : 0 <= n -> Z.land a b mod 2 ^ n = Z.land (a mod 2 ^ n) (b mod 2 ^ n).
Proof.
  intros. rewrite <- !Z.land_ones by auto. apply Z.bits_inj'. intros i Hi. rewrite !Z.land_spec.
  destruct (Z.testbit a i), (Z.testbit b i), (Z.testbit (Z.ones n) i); reflexivity.
Qed.
Lemma mod_lor a b n : 0 <= n -> Z.lor a b mod 2 ^ n = Z.lor (a mod 2 ^ n) (b mod 2 ^ n).
Proof.
  intros. rewrite <- !Z.land_ones by auto. apply Z.bits_inj'. intros i Hi.
  rewrite !Z.land_spec, !Z.lor_spec, !Z.land_spec.
  destruct (Z.testbit a i), (Z.testbit b i), (Z.testbit (Z.ones n) i); reflexivity.
Qed.
Lemma mod_lxor a b n : 0 <= n -> Z.lxor a b mod 2 ^ n = Z.lxor (a mod 2 ^ n) (b mod 2 ^ n).
Proof.
  intros. rewrite <- !Z.land_ones by auto. apply Z.bits_inj'. intros i Hi.
  rewrite !Z.land_spec, !Z.lxor_spec, !Z.land_spec.
  destruct (Z.testbit a i), (Z.testbit b i), (Z.testbit (Z.ones n) i); reflexivity.
Qed.
Lemma mod128_u a : is_u128 (a mod 2 ^ 128).
Proof. unfold is_u128. apply Z.mod_pos_bound. reflexivity. Qed.

Lemma bit_and_int_calls a b st :
  calls E "stdlib.bit-and" (i128 a ++ i128 b) st (RVals (i128 (Z.land a b)) st).
Proof. unfold i128. rewrite mod_land by lia. apply bit_and_uint_calls; apply mod128_u. Qed.
Lemma bit_or_int_calls a b st :
  calls E "stdlib.bit-or" (i128 a ++ i128 b) st (RVals (i128 (Z.lor a b)) st).
Proof. unfold i128. rewrite mod_lor by lia. apply bit_or_uint_calls; apply mod128_u. Qed.
Lemma bit_xor_int_calls a b st :
  calls E "stdlib.bit-xor" (i128 a ++ i128 b) st (RVals (i128 (Z.lxor a b)) st).
Proof. unfold i128. rewrite mod_lxor by lia. apply bit_xor_uint_calls; apply mod128_u. Qed.

Lemma bit_not_uint_calls a st : is_u128 a ->
  calls E "stdlib.bit-not" (u128 a) st (RVals (u128 (2 ^ 128 - 1 - a)) st).
Proof.
  apply (lift_u _ (fun a st => RVals (u128 (2 ^ 128 - 1 - a)) st)). clear a st. intros al ah st R H1 H2 H.
  apply bit_not_wp; auto. rewrite pow128 in H.
  replace (m128 - 1 - val128 al ah) with (val128 (m64 - 1 - al) (m64 - 1 - ah)) in H by lia.
  rewrite u128_limbs in H by (unfold lim in *; lia). exact H.
Qed.
Lemma bit_not_int_calls a st :
  calls E "stdlib.bit-not" (i128 a) st (RVals (i128 (- a - 1)) st).
Proof.
  unfold i128. replace ((- a - 1) mod 2 ^ 128) with (2 ^ 128 - 1 - a mod 2 ^ 128).
  - apply bit_not_uint_calls. apply mod128_u.
  - rewrite pow128. zlia.
Qed.
Lemma shl_uint_calls a b st : is_u128 a -> is_u128 b ->
  calls E "stdlib.bit-shift-left" (u128 a ++ u128 b) st (RVals (u128 ((a * 2 ^ (b mod 128)) mod 2 ^ 128)) st).
Proof.
  apply (lift_uu _ (fun a b st => RVals (u128 ((a * 2 ^ (b mod 128)) mod 2 ^ 128)) st)). clear a b st.
  intros al ah bl bh st R H1 H2 H3 H4 H. apply bit_shift_left_wp; auto.
  replace (val128 bl bh mod 128) with (bl mod 128) in H by zlia. exact H.
Qed.
Lemma shl_int_calls a b st : is_u128 b ->
  calls E "stdlib.bit-shift-left" (i128 a ++ u128 b) st (RVals (i128 (a * 2 ^ (b mod 128))) st).
Proof.
  intros Hb. unfold i128. rewrite Z.mul_mod by discriminate.
  rewrite <- (Z.mul_mod_idemp_r (a mod 2 ^ 128)) by discriminate.
  rewrite Z.mod_mod, Z.mul_mod_idemp_r by discriminate. apply shl_uint_calls; auto. apply mod128_u.
Qed.
Lemma shr_uint_calls a b st : is_u128 a -> is_u128 b ->
  calls E "stdlib.bit-shift-right-uint" (u128 a ++ u128 b) st (RVals (u128 (a / 2 ^ (b mod 128))) st).
Proof.
  apply (lift_uu _ (fun a b st => RVals (u128 (a / 2 ^ (b mod 128))) st)). clear a b st.
  intros al ah bl bh st R H1 H2 H3 H4 H. apply bit_shift_right_uint_wp; auto.
  replace (val128 bl bh mod 128) with (bl mod 128) in H by zlia. exact H.
Qed.
Lemma shr_int_calls a b st : is_i128 a -> is_u128 b ->
  calls E "stdlib.bit-shift-right-int" (i128 a ++ u128 b) st (RVals (i128 (a / 2 ^ (b mod 128))) st).
Proof.
  apply (lift_iu _ (fun a b st => RVals (i128 (a / 2 ^ (b mod 128))) st)). clear a b st.
  intros al ah bl bh st R H1 H2 H3 H4 H. apply bit_shift_right_int_wp; auto.
  replace (val128 bl bh mod 128) with (bl mod 128) in H by zlia. exact H.
Qed.

Lemma to_uint_calls a st : is_i128 a ->
  calls E "stdlib.to-uint" (i128 a) st (res (0 <=? a) (u128 a) 1 st).
Proof.
  apply (lift_i _ (fun a st => res (0 <=? a) (u128 a) 1 st)). clear a st. intros al ah st R H1 H2 H.
  apply to_uint_wp; auto. unfold res in H. pose proof (sval_alt al ah H1 H2) as V. pose proof (sval_sign al ah H1 H2) as S.
  destruct (Z.ltb_spec ah h64), (Z.leb_spec 0 (sval128 al ah)), (Z.leb_spec h64 ah); try lia; try exact H.
  rewrite V, u128_limbs in H by auto. exact H.
Qed.
Lemma to_int_calls a st : is_u128 a ->
  calls E "stdlib.to-int" (u128 a) st (res (a <? h128) (i128 a) 0 st).
Proof.
  apply (lift_u _ (fun a st => res (a <? h128) (i128 a) 0 st)). clear a st. intros al ah st R H1 H2 H.
  apply to_int_wp; auto. unfold res in H. unfold lim in *.
  destruct (Z.ltb_spec ah h64), (Z.ltb_spec (val128 al ah) h128); try lia; try exact H.
  unfold i128 in H. rewrite pow128, Z.mod_small, u128_limbs in H by (unfold lim; lia). exact H.
Qed.
End Facts.
