(** * Properties C01-C07, C09, C10: integer arithmetic of the runtime library.
    Each theorem is about the WASM code of standard.wat (translated in Std.v), embedded in
    any module [E] that contains it, from any store.  Nothing else lives in this file. *)
From Coq Require Import ZArith String List Bool.
Import ListNotations.
From Verif Require Import Wasm Std StdEnv WasmLogic Spec ArithFacts ArithSpecs.
Open Scope string_scope.
Open Scope list_scope.
Open Scope Z_scope.

Theorem C01_add_uint : forall {HS} (E : env HS), has_std E -> forall a b, is_u128 a -> is_u128 b ->
  exact_or_aborts E "stdlib.add-uint" u128 is_u128 a b (a + b) err_overflow.
Proof. exact @p_add_uint. Qed.
Print Assumptions C01_add_uint.

Theorem C01_add_int : forall {HS} (E : env HS), has_std E -> forall a b, is_i128 a -> is_i128 b ->
  exact_or_aborts E "stdlib.add-int" i128 is_i128 a b (a + b) err_overflow.
Proof. exact @p_add_int. Qed.
Print Assumptions C01_add_int.

Example C01_ex1 : returns std_env "stdlib.add-uint" (u128 (2 ^ 64 - 1) ++ u128 (2 ^ 100 + 1)) blank_store (u128 (2 ^ 100 + 2 ^ 64)).
Proof. apply (calls_compute _ 60); [vm_compute; reflexivity|discriminate]. Qed.

Example C01_ex2 : aborts std_env "stdlib.add-int" (i128 (2 ^ 127 - 1) ++ i128 1) blank_store err_overflow.
Proof. apply (calls_compute _ 60); [vm_compute; reflexivity|discriminate]. Qed.

Theorem C02_sub_int : forall {HS} (E : env HS), has_std E -> forall a b, is_i128 a -> is_i128 b ->
  exact_or_aborts E "stdlib.sub-int" i128 is_i128 a b (a - b) err_underflow.
Proof. exact @p_sub_int. Qed.
Print Assumptions C02_sub_int.

Theorem C02_sub_uint_partial : forall {HS} (E : env HS), has_std E -> forall a b, is_u128 a -> is_u128 b ->
  ~ (a < b /\ b / 2 ^ 64 = 2 ^ 64 - 1 /\ a mod 2 ^ 64 < b mod 2 ^ 64) ->
  exact_or_aborts E "stdlib.sub-uint" u128 is_u128 a b (a - b) err_underflow.
Proof. exact @p_sub_uint. Qed.
Print Assumptions C02_sub_uint_partial.

Theorem C02_sub_uint_wrong_set : forall {HS} (E : env HS), has_std E -> forall a b st, is_u128 a -> is_u128 b ->
  a < b -> b / 2 ^ 64 = 2 ^ 64 - 1 -> a mod 2 ^ 64 < b mod 2 ^ 64 ->
  returns E "stdlib.sub-uint" (u128 a ++ u128 b) st (u128 (a - b + 2 ^ 128)).
Proof. exact @p_sub_uint_wrong. Qed.
Print Assumptions C02_sub_uint_wrong_set.

Theorem C02_sub_uint_refuted : forall {HS} (E : env HS), has_std E -> inhabited (store HS) -> ~ sub_uint_correct E.
Proof. exact @p_sub_uint_refuted. Qed.
Print Assumptions C02_sub_uint_refuted.

Example C02_ex1 : returns std_env "stdlib.sub-int" (i128 (-5) ++ i128 (2 ^ 70)) blank_store (i128 (- 5 - 2 ^ 70)).
Proof. apply (calls_compute _ 60); [vm_compute; reflexivity|discriminate]. Qed.

Example C02_ex2 : aborts std_env "stdlib.sub-uint" (u128 3 ++ u128 5) blank_store err_underflow.
Proof. apply (calls_compute _ 60); [vm_compute; reflexivity|discriminate]. Qed.

Example C02_ex_bug : returns std_env "stdlib.sub-uint" (u128 0 ++ u128 (2 ^ 128 - 2 ^ 64 + 1)) blank_store (u128 (2 ^ 64 - 1)).
Proof. apply (calls_compute _ 60); [vm_compute; reflexivity|discriminate]. Qed.

Theorem C03_mul_uint : forall {HS} (E : env HS), has_std E -> forall a b, is_u128 a -> is_u128 b ->
  exact_or_aborts E "stdlib.mul-uint" u128 is_u128 a b (a * b) err_overflow.
Proof. exact @p_mul_uint. Qed.
Print Assumptions C03_mul_uint.

Theorem C03_mul_int_partial : forall {HS} (E : env HS), has_std E -> forall a b, is_i128 a -> is_i128 b ->
  ~ (a * b = - 2 ^ 127 /\ a <> 1 /\ b <> 1) ->
  exact_or_aborts E "stdlib.mul-int" i128 is_i128 a b (a * b) err_overflow.
Proof. exact @p_mul_int. Qed.
Print Assumptions C03_mul_int_partial.

Theorem C03_mul_int_wrong_set : forall {HS} (E : env HS), has_std E -> forall a b st, is_i128 a -> is_i128 b ->
  a * b = - 2 ^ 127 -> a <> 1 -> b <> 1 -> aborts E "stdlib.mul-int" (i128 a ++ i128 b) st err_overflow.
Proof. exact @p_mul_int_wrong. Qed.
Print Assumptions C03_mul_int_wrong_set.

Theorem C03_mul_int_refuted : forall {HS} (E : env HS), has_std E -> inhabited (store HS) -> ~ mul_int_correct E.
Proof. exact @p_mul_int_refuted. Qed.
Print Assumptions C03_mul_int_refuted.

Example C03_ex1 : returns std_env "stdlib.mul-uint" (u128 (2 ^ 70 + 3) ++ u128 (2 ^ 50 + 7)) blank_store (u128 ((2 ^ 70 + 3) * (2 ^ 50 + 7))).
Proof. apply (calls_compute _ 60); [vm_compute; reflexivity|discriminate]. Qed.

Example C03_ex2 : aborts std_env "stdlib.mul-uint" (u128 (2 ^ 64) ++ u128 (2 ^ 64)) blank_store err_overflow.
Proof. apply (calls_compute _ 60); [vm_compute; reflexivity|discriminate]. Qed.

Example C03_ex3 : returns std_env "stdlib.mul-int" (i128 (- 2 ^ 70) ++ i128 (2 ^ 50 + 7)) blank_store (i128 (- 2 ^ 70 * (2 ^ 50 + 7))).
Proof. apply (calls_compute _ 60); [vm_compute; reflexivity|discriminate]. Qed.

Theorem C04_div_uint : forall {HS} (E : env HS), has_std E -> forall a b st, is_u128 a -> is_u128 b ->
  (b <> 0 -> returns E "stdlib.div-uint" (u128 a ++ u128 b) st (u128 (a / b))) /\
  (b = 0 -> aborts E "stdlib.div-uint" (u128 a ++ u128 b) st err_div_zero).
Proof. exact @p_div_uint. Qed.
Print Assumptions C04_div_uint.

Theorem C04_mod_uint : forall {HS} (E : env HS), has_std E -> forall a b st, is_u128 a -> is_u128 b ->
  (b <> 0 -> returns E "stdlib.mod-uint" (u128 a ++ u128 b) st (u128 (a mod b))) /\
  (b = 0 -> aborts E "stdlib.mod-uint" (u128 a ++ u128 b) st err_div_zero).
Proof. exact @p_mod_uint. Qed.
Print Assumptions C04_mod_uint.

Theorem C04_div_int : forall {HS} (E : env HS), has_std E -> forall a b st, is_i128 a -> is_i128 b ->
  (b <> 0 -> ~ (a = - 2 ^ 127 /\ b = -1) -> returns E "stdlib.div-int" (i128 a ++ i128 b) st (i128 (Z.quot a b))) /\
  (a = - 2 ^ 127 -> b = -1 -> aborts E "stdlib.div-int" (i128 a ++ i128 b) st err_overflow) /\
  (b = 0 -> aborts E "stdlib.div-int" (i128 a ++ i128 b) st err_div_zero).
Proof. exact @p_div_int. Qed.
Print Assumptions C04_div_int.

Theorem C04_mod_int : forall {HS} (E : env HS), has_std E -> forall a b st, is_i128 a -> is_i128 b ->
  (b <> 0 -> returns E "stdlib.mod-int" (i128 a ++ i128 b) st (i128 (Z.rem a b))) /\
  (b = 0 -> aborts E "stdlib.mod-int" (i128 a ++ i128 b) st err_div_zero).
Proof. exact @p_mod_int. Qed.
Print Assumptions C04_mod_int.

Example C04_ex1 : returns std_env "stdlib.div-int" (i128 (-7) ++ i128 2) blank_store (i128 (-3)).
Proof. apply (calls_compute _ 300); [vm_compute; reflexivity|discriminate]. Qed.

Example C04_ex2 : returns std_env "stdlib.mod-int" (i128 (-7) ++ i128 2) blank_store (i128 (-1)).
Proof. apply (calls_compute _ 300); [vm_compute; reflexivity|discriminate]. Qed.

Example C04_ex3 : aborts std_env "stdlib.mod-uint" (u128 7 ++ u128 0) blank_store err_div_zero.
Proof. apply (calls_compute _ 300); [vm_compute; reflexivity|discriminate]. Qed.

Theorem C05_pow_uint : forall {HS} (E : env HS), has_std E -> forall a b, is_u128 a -> is_u128 b ->
  exact_or_aborts E "stdlib.pow-uint" u128 is_u128 a b (a ^ b) (if 127 <? b then err_pow else err_overflow).
Proof. exact @p_pow_uint. Qed.
Print Assumptions C05_pow_uint.

Theorem C05_pow_int_partial : forall {HS} (E : env HS), has_std E -> forall a b, is_i128 a -> is_i128 b -> 0 <= b -> ~ (a = -1 /\ 127 < b) ->
  exact_or_aborts E "stdlib.pow-int" i128 is_i128 a b (a ^ b)
    (if (127 <? b) || ((126 <? b) && (0 <=? a)) then err_pow else err_overflow).
Proof. exact @p_pow_int. Qed.
Print Assumptions C05_pow_int_partial.

Theorem C05_pow_int_negative_exponent : forall {HS} (E : env HS), has_std E -> forall a b st, is_i128 a -> is_i128 b -> b < 0 ->
  (a <> 0 -> a <> 1 -> aborts E "stdlib.pow-int" (i128 a ++ i128 b) st err_pow) /\
  (a = 0 \/ a = 1 -> returns E "stdlib.pow-int" (i128 a ++ i128 b) st (i128 a)).
Proof. exact @p_pow_int_neg. Qed.
Print Assumptions C05_pow_int_negative_exponent.

Theorem C05_pow_int_wrong_set : forall {HS} (E : env HS), has_std E -> forall b st, is_i128 b -> 127 < b -> aborts E "stdlib.pow-int" (i128 (-1) ++ i128 b) st err_pow.
Proof. exact @p_pow_int_wrong. Qed.
Print Assumptions C05_pow_int_wrong_set.

Theorem C05_pow_int_refuted : forall {HS} (E : env HS), has_std E -> inhabited (store HS) -> ~ pow_int_correct E.
Proof. exact @p_pow_int_refuted. Qed.
Print Assumptions C05_pow_int_refuted.

Example C05_ex1 : returns std_env "stdlib.pow-int" (i128 (-3) ++ i128 7) blank_store (i128 (-2187)).
Proof. apply (calls_compute _ 300); [vm_compute; reflexivity|discriminate]. Qed.

Example C05_ex2 : aborts std_env "stdlib.pow-uint" (u128 3 ++ u128 100) blank_store err_overflow.
Proof. apply (calls_compute _ 300); [vm_compute; reflexivity|discriminate]. Qed.

Example C05_ex3 : returns std_env "stdlib.pow-int" (i128 (-2) ++ i128 127) blank_store (i128 (- 2 ^ 127)).
Proof. apply (calls_compute _ 300); [vm_compute; reflexivity|discriminate]. Qed.

Theorem C06_log2_uint : forall {HS} (E : env HS), has_std E -> forall a st, is_u128 a ->
  (forall k, 2 ^ k <= a < 2 ^ (k + 1) -> 0 <= k -> returns E "stdlib.log2-uint" (u128 a) st (u128 k)) /\
  (a = 0 -> aborts E "stdlib.log2-uint" (u128 a) st err_log).
Proof. exact @p_log2_uint. Qed.
Print Assumptions C06_log2_uint.

Theorem C06_log2_int : forall {HS} (E : env HS), has_std E -> forall a st, is_i128 a ->
  (forall k, 2 ^ k <= a < 2 ^ (k + 1) -> 0 <= k -> returns E "stdlib.log2-int" (i128 a) st (i128 k)) /\
  (a <= 0 -> aborts E "stdlib.log2-int" (i128 a) st err_log).
Proof. exact @p_log2_int. Qed.
Print Assumptions C06_log2_int.

Theorem C06_sqrti_uint : forall {HS} (E : env HS), has_std E -> forall a st, is_u128 a ->
  exists r, 0 <= r /\ r * r <= a < (r + 1) * (r + 1) /\ returns E "stdlib.sqrti-uint" (u128 a) st (u128 r).
Proof. exact @p_sqrti_uint. Qed.
Print Assumptions C06_sqrti_uint.

Theorem C06_sqrti_int : forall {HS} (E : env HS), has_std E -> forall a st, is_i128 a ->
  (0 <= a -> exists r, 0 <= r /\ r * r <= a < (r + 1) * (r + 1) /\ returns E "stdlib.sqrti-int" (i128 a) st (i128 r)) /\
  (a < 0 -> aborts E "stdlib.sqrti-int" (i128 a) st err_sqrt).
Proof. exact @p_sqrti_int. Qed.
Print Assumptions C06_sqrti_int.

Example C06_ex1 : returns std_env "stdlib.sqrti-uint" (u128 (10 ^ 30 + 5)) blank_store (u128 (10 ^ 15)).
Proof. apply (calls_compute _ 300); [vm_compute; reflexivity|discriminate]. Qed.

Example C06_ex2 : returns std_env "stdlib.log2-int" (i128 (2 ^ 100 + 1)) blank_store (i128 100).
Proof. apply (calls_compute _ 300); [vm_compute; reflexivity|discriminate]. Qed.

Theorem C07_compare_uint : forall {HS} (E : env HS), has_std E -> forall op rel a b st, is_u128 a -> is_u128 b -> In (op, rel) cmps ->
  returns E ("stdlib." ++ op ++ "-uint")%string (u128 a ++ u128 b) st (vbool (rel a b)).
Proof. exact @p_cmp_uint. Qed.
Print Assumptions C07_compare_uint.

Theorem C07_compare_int : forall {HS} (E : env HS), has_std E -> forall op rel a b st, is_i128 a -> is_i128 b -> In (op, rel) cmps ->
  returns E ("stdlib." ++ op ++ "-int")%string (i128 a ++ i128 b) st (vbool (rel a b)).
Proof. exact @p_cmp_int. Qed.
Print Assumptions C07_compare_int.

Example C07_ex1 : returns std_env "stdlib.lt-int" (i128 (-1) ++ i128 (2 ^ 64)) blank_store (vbool true).
Proof. apply (calls_compute _ 60); [vm_compute; reflexivity|discriminate]. Qed.

Theorem C09_bit_and_uint : forall {HS} (E : env HS), has_std E -> forall a b st, is_u128 a -> is_u128 b ->
  returns E "stdlib.bit-and" (u128 a ++ u128 b) st (u128 (Z.land a b)).
Proof. exact @bit_and_uint_calls. Qed.
Print Assumptions C09_bit_and_uint.

Theorem C09_bit_and_int : forall {HS} (E : env HS), has_std E -> forall a b st,
  returns E "stdlib.bit-and" (i128 a ++ i128 b) st (i128 (Z.land a b)).
Proof. exact @bit_and_int_calls. Qed.
Print Assumptions C09_bit_and_int.

Theorem C09_bit_or_uint : forall {HS} (E : env HS), has_std E -> forall a b st, is_u128 a -> is_u128 b ->
  returns E "stdlib.bit-or" (u128 a ++ u128 b) st (u128 (Z.lor a b)).
Proof. exact @bit_or_uint_calls. Qed.
Print Assumptions C09_bit_or_uint.

Theorem C09_bit_or_int : forall {HS} (E : env HS), has_std E -> forall a b st,
  returns E "stdlib.bit-or" (i128 a ++ i128 b) st (i128 (Z.lor a b)).
Proof. exact @bit_or_int_calls. Qed.
Print Assumptions C09_bit_or_int.

Theorem C09_bit_xor_uint : forall {HS} (E : env HS), has_std E -> forall a b st, is_u128 a -> is_u128 b ->
  returns E "stdlib.bit-xor" (u128 a ++ u128 b) st (u128 (Z.lxor a b)).
Proof. exact @bit_xor_uint_calls. Qed.
Print Assumptions C09_bit_xor_uint.

Theorem C09_bit_xor_int : forall {HS} (E : env HS), has_std E -> forall a b st,
  returns E "stdlib.bit-xor" (i128 a ++ i128 b) st (i128 (Z.lxor a b)).
Proof. exact @bit_xor_int_calls. Qed.
Print Assumptions C09_bit_xor_int.

Theorem C09_bit_not_uint : forall {HS} (E : env HS), has_std E -> forall a st, is_u128 a -> returns E "stdlib.bit-not" (u128 a) st (u128 (2 ^ 128 - 1 - a)).
Proof. exact @bit_not_uint_calls. Qed.
Print Assumptions C09_bit_not_uint.

Theorem C09_bit_not_int : forall {HS} (E : env HS), has_std E -> forall a st, returns E "stdlib.bit-not" (i128 a) st (i128 (- a - 1)).
Proof. exact @bit_not_int_calls. Qed.
Print Assumptions C09_bit_not_int.

Theorem C09_shift_left_uint : forall {HS} (E : env HS), has_std E -> forall a b st, is_u128 a -> is_u128 b ->
  returns E "stdlib.bit-shift-left" (u128 a ++ u128 b) st (u128 ((a * 2 ^ (b mod 128)) mod 2 ^ 128)).
Proof. exact @shl_uint_calls. Qed.
Print Assumptions C09_shift_left_uint.

Theorem C09_shift_left_int : forall {HS} (E : env HS), has_std E -> forall a b st, is_u128 b ->
  returns E "stdlib.bit-shift-left" (i128 a ++ u128 b) st (i128 (a * 2 ^ (b mod 128))).
Proof. exact @shl_int_calls. Qed.
Print Assumptions C09_shift_left_int.

Theorem C09_shift_right_uint : forall {HS} (E : env HS), has_std E -> forall a b st, is_u128 a -> is_u128 b ->
  returns E "stdlib.bit-shift-right-uint" (u128 a ++ u128 b) st (u128 (a / 2 ^ (b mod 128))).
Proof. exact @shr_uint_calls. Qed.
Print Assumptions C09_shift_right_uint.

Theorem C09_shift_right_int : forall {HS} (E : env HS), has_std E -> forall a b st, is_i128 a -> is_u128 b ->
  returns E "stdlib.bit-shift-right-int" (i128 a ++ u128 b) st (i128 (a / 2 ^ (b mod 128))).
Proof. exact @shr_int_calls. Qed.
Print Assumptions C09_shift_right_int.

Example C09_ex1 : returns std_env "stdlib.bit-shift-right-int" (i128 (-9) ++ u128 2) blank_store (i128 (-3)).
Proof. apply (calls_compute _ 60); [vm_compute; reflexivity|discriminate]. Qed.

Example C09_ex2 : returns std_env "stdlib.bit-xor" (i128 (-1) ++ i128 (2 ^ 100)) blank_store (i128 (- 2 ^ 100 - 1)).
Proof. apply (calls_compute _ 60); [vm_compute; reflexivity|discriminate]. Qed.

Theorem C10_to_uint : forall {HS} (E : env HS), has_std E -> forall a st, is_i128 a ->
  (0 <= a -> returns E "stdlib.to-uint" (i128 a) st (u128 a)) /\
  (a < 0 -> aborts E "stdlib.to-uint" (i128 a) st err_underflow).
Proof. exact @p_to_uint. Qed.
Print Assumptions C10_to_uint.

Theorem C10_to_int : forall {HS} (E : env HS), has_std E -> forall a st, is_u128 a ->
  (a < 2 ^ 127 -> returns E "stdlib.to-int" (u128 a) st (i128 a)) /\
  (2 ^ 127 <= a -> aborts E "stdlib.to-int" (u128 a) st err_overflow).
Proof. exact @p_to_int. Qed.
Print Assumptions C10_to_int.

Example C10_ex1 : aborts std_env "stdlib.to-uint" (i128 (-9)) blank_store err_underflow.
Proof. apply (calls_compute _ 60); [vm_compute; reflexivity|discriminate]. Qed.

