(** * Properties C08 and C11: comparing byte sequences, and reading integers from them. *)
From Coq Require Import ZArith String List Bool Lia.
Import ListNotations.
From Verif Require Import Wasm Std StdEnv WasmLogic Spec SpecBytes Mem ArithProofs BuffProofs ConvProofs.
Open Scope string_scope.
Open Scope list_scope.
Open Scope Z_scope.

(** ** proof support *)
Lemma lex_lt_iff m m' a b xs ys : holds m a xs -> holds m' b ys ->
  (lex_lt xs ys <-> first_diff xs ys < 0 \/ first_diff xs ys = 0 /\ (length xs < length ys)%nat).
Proof.
  intros _ _. revert ys. induction xs as [|x xs IH]; intros [|y ys]; cbn [first_diff length].
  - split; [inversion 1|intros [?|[_ ?]]; lia].
  - split; [intros; right; split; [reflexivity|lia]|constructor].
  - split; [inversion 1|intros [?|[_ ?]]; lia].
  - destruct (Z.eqb_spec x y) as [->|Hn].
    + split.
      * intros H. inversion H; subst; [lia|]. destruct (proj1 (IH ys) H1) as [?|[? ?]]; [auto|right; split; [auto|lia]].
      * intros H. apply lex_tail. apply IH. destruct H as [?|[? ?]]; [auto|right; split; [auto|lia]].
    + split.
      * intros H. inversion H; subst; [left; lia|congruence].
      * intros [H|[H _]]; [apply lex_head; lia|lia].
Qed.

Lemma first_diff_sym xs : forall ys, first_diff ys xs = - first_diff xs ys.
Proof.
  induction xs as [|x xs IH]; intros [|y ys]; cbn [first_diff]; try reflexivity.
  rewrite (Z.eqb_sym y x). destruct (x =? y); [apply IH|lia].
Qed.

Ltac bprop thm HE :=
  intros HS E HE a b xs ys st HX HY; eexists; split;
  [apply wpf_calls; apply (thm HS E HE); [exact HX|exact HY|reflexivity]|];
  rewrite ?(lex_lt_iff _ _ _ _ _ _ HX HY), ?(lex_lt_iff _ _ _ _ _ _ HY HX), ?(first_diff_sym xs ys);
  unfold buff_res, irel; destruct (Z.eqb_spec (first_diff xs ys) 0); lia.

(** ** C08.  A buffer, ASCII string or (byte-encoded) string argument is passed as its address
    and byte length.  The comparison never traps, reads nothing else (the answer is determined by
    the two byte strings alone) and leaves the store unchanged. *)
Theorem C08_lt_buff : forall {HS} (E : env HS), has_std E -> forall a b xs ys st,
  holds (smem st) a xs -> holds (smem st) b ys ->
  exists r, returns E "stdlib.lt-buff" [VI32 a; vlen xs; VI32 b; vlen ys] st (vbool r) /\
            (r = true <-> lex_lt xs ys).
Proof. bprop @lt_buff_wp HE. Qed.
Print Assumptions C08_lt_buff.

Theorem C08_gt_buff : forall {HS} (E : env HS), has_std E -> forall a b xs ys st,
  holds (smem st) a xs -> holds (smem st) b ys ->
  exists r, returns E "stdlib.gt-buff" [VI32 a; vlen xs; VI32 b; vlen ys] st (vbool r) /\
            (r = true <-> lex_lt ys xs).
Proof. bprop @gt_buff_wp HE. Qed.
Print Assumptions C08_gt_buff.

Theorem C08_le_buff : forall {HS} (E : env HS), has_std E -> forall a b xs ys st,
  holds (smem st) a xs -> holds (smem st) b ys ->
  exists r, returns E "stdlib.le-buff" [VI32 a; vlen xs; VI32 b; vlen ys] st (vbool r) /\
            (r = true <-> ~ lex_lt ys xs).
Proof. bprop @le_buff_wp HE. Qed.
Print Assumptions C08_le_buff.

Theorem C08_ge_buff : forall {HS} (E : env HS), has_std E -> forall a b xs ys st,
  holds (smem st) a xs -> holds (smem st) b ys ->
  exists r, returns E "stdlib.ge-buff" [VI32 a; vlen xs; VI32 b; vlen ys] st (vbool r) /\
            (r = true <-> ~ lex_lt xs ys).
Proof. bprop @ge_buff_wp HE. Qed.
Print Assumptions C08_ge_buff.

(** the order used is a strict total order on byte strings *)
Theorem C08_lex_total : forall xs ys, lex_lt xs ys \/ xs = ys \/ lex_lt ys xs.
Proof.
  induction xs as [|x xs IH]; intros [|y ys]; auto using lex_lt.
  destruct (Z.lt_trichotomy x y) as [H|[->|H]]; auto using lex_lt.
  destruct (IH ys) as [H|[->|H]]; auto using lex_lt.
Qed.
Theorem C08_lex_irrefl : forall xs, ~ lex_lt xs xs.
Proof. induction xs; intros H; inversion H; subst; [lia|auto]. Qed.
Theorem C08_lex_trans : forall xs ys zs, lex_lt xs ys -> lex_lt ys zs -> lex_lt xs zs.
Proof.
  intros xs ys zs H. revert zs. induction H; intros zs H1; inversion H1; subst; try (constructor; lia).
  apply lex_tail; auto.
Qed.
Print Assumptions C08_lex_trans.

Definition c08_store : store unit :=
  with_mem blank_store (write_bytes (smem blank_store) 65530 [1; 255; 7; 1; 255]).
Example C08_ex1 : holds (smem c08_store) 65530 [1; 255; 7] /\ holds (smem c08_store) 65533 [1; 255].
Proof. repeat split; vm_compute; congruence. Qed.
Example C08_ex2 : returns std_env "stdlib.lt-buff" [VI32 65533; VI32 2; VI32 65530; VI32 3] c08_store (vbool true).
Proof. apply (calls_compute _ 60); [vm_compute; reflexivity|discriminate]. Qed.

(** ** C11 *)

(** full statements *)
Definition buff_to_int_correct {HS} (E : env HS) (f : string) (value : list Z -> Z) : Prop :=
  forall a bs st, 0 < a -> holds (smem st) a bs ->
  ((length bs <= 16)%nat -> returns E f [VI32 a; vlen bs] st (u128 (value bs))) /\
  ((16 < length bs)%nat -> aborts E f [VI32 a; vlen bs] st err_buff_len).

(** buffers in a compiled contract never live in the first 16 bytes of memory: the data of the
    standard library occupies addresses 0..1351 (wasm_generator.rs, END_OF_STANDARD_DATA). *)
Theorem C11_buff_to_uint_be : forall {HS} (E : env HS), has_std E -> forall a bs st,
  16 <= a -> holds (smem st) a bs ->
  ((length bs <= 16)%nat -> returns E "stdlib.buff-to-uint-be" [VI32 a; vlen bs] st (u128 (be_value bs))) /\
  ((16 < length bs)%nat -> aborts E "stdlib.buff-to-uint-be" [VI32 a; vlen bs] st err_buff_len).
Proof.
  intros HS E HE a bs st Ha H.
  split; intros Hl; apply wpf_calls; apply (buff_to_uint_be_wp E HE); auto; try lia;
    destruct (Z.leb_spec (Z.of_nat (length bs)) 16); try lia; reflexivity.
Qed.
Print Assumptions C11_buff_to_uint_be.

(** [buff-to-int-be] is the same code, its result read as a signed integer
    (/repo/clar2wasm/src/words/buff_to_integer.rs 42-65). *)
Lemma i128_as_signed n : 0 <= n < 2 ^ 128 -> i128 (as_signed n) = u128 n.
Proof.
  intros H. unfold i128, as_signed. f_equal.
  change (2 ^ 128) with m128 in *. change (2 ^ 127) with h128. Z.to_euclidean_division_equations; lia.
Qed.
Lemma len16 (bs : list Z) : (length bs <= 16)%nat -> 256 ^ Z.of_nat (length bs) <= 2 ^ 128.
Proof. intros. change (2 ^ 128) with (256 ^ 16). apply Z.pow_le_mono_r; lia. Qed.

Theorem C11_buff_to_int_be : forall {HS} (E : env HS), has_std E -> forall a bs st,
  16 <= a -> holds (smem st) a bs -> (length bs <= 16)%nat ->
  is_i128 (as_signed (be_value bs)) /\
  returns E "stdlib.buff-to-uint-be" [VI32 a; vlen bs] st (i128 (as_signed (be_value bs))).
Proof.
  intros HS E HE a bs st Ha H Hl.
  pose proof (be_value_bound _ (holds_byte _ _ _ H)) as Hb. pose proof (len16 bs Hl). split.
  - unfold is_i128, as_signed. pose proof (Z.mod_pos_bound (be_value bs + 2 ^ 127) (2 ^ 128) eq_refl).
    change (2 ^ 128) with (2 * 2 ^ 127) in *. lia.
  - rewrite i128_as_signed by lia. apply C11_buff_to_uint_be; auto.
Qed.
Print Assumptions C11_buff_to_int_be.

(** Little-endian: the code always reads 16 bytes starting at the buffer, so the claim needs 16
    bytes of memory after the start of the buffer. *)
Theorem C11_buff_to_uint_le_partial : forall {HS} (E : env HS), has_std E -> forall a bs st,
  holds (smem st) a bs -> a + 16 <= msize (smem st) ->
  ((length bs <= 16)%nat -> returns E "stdlib.buff-to-uint-le" [VI32 a; vlen bs] st (u128 (le_value bs))) /\
  ((16 < length bs)%nat -> aborts E "stdlib.buff-to-uint-le" [VI32 a; vlen bs] st err_buff_len).
Proof.
  intros HS E HE a bs st H Ha.
  split; intros Hl; apply wpf_calls; apply (buff_to_uint_le_wp E HE); auto; try lia;
    destruct (Z.leb_spec (Z.of_nat (length bs)) 16); try lia; reflexivity.
Qed.
Print Assumptions C11_buff_to_uint_le_partial.

Theorem C11_buff_to_int_le_partial : forall {HS} (E : env HS), has_std E -> forall a bs st,
  holds (smem st) a bs -> a + 16 <= msize (smem st) -> (length bs <= 16)%nat ->
  is_i128 (as_signed (le_value bs)) /\
  returns E "stdlib.buff-to-uint-le" [VI32 a; vlen bs] st (i128 (as_signed (le_value bs))).
Proof.
  intros HS E HE a bs st H Ha Hl.
  pose proof (le_val_bound _ (holds_byte _ _ _ H)) as Hb. pose proof (len16 bs Hl).
  rewrite <- le_value_eq in Hb. split.
  - unfold is_i128, as_signed. pose proof (Z.mod_pos_bound (le_value bs + 2 ^ 127) (2 ^ 128) eq_refl).
    change (2 ^ 128) with (2 * 2 ^ 127) in *. lia.
  - rewrite i128_as_signed by lia. apply C11_buff_to_uint_le_partial; auto.
Qed.
Print Assumptions C11_buff_to_int_le_partial.

(** ... and is false without that room: a one-byte buffer in the last byte of memory traps. *)
Theorem C11_buff_to_uint_le_refuted : ~ buff_to_int_correct (@std_env unit) "stdlib.buff-to-uint-le" le_value.
Proof.
  intros H. specialize (H 65535 [0] blank_store eq_refl).
  destruct H as [H _]; [repeat split; vm_compute; congruence|].
  specialize (H ltac:(simpl; lia)).
  assert (H2 : calls (@std_env unit) "stdlib.buff-to-uint-le" [VI32 65535; vlen [0]] blank_store
                 (RTrap TMem blank_store)).
  { apply (calls_compute _ 60); [vm_compute; reflexivity|discriminate]. }
  pose proof (calls_det _ _ _ _ _ _ H H2) as C. discriminate C.
Qed.
Print Assumptions C11_buff_to_uint_le_refuted.

Definition c11_store : store unit :=
  with_mem blank_store (write_bytes (smem blank_store) 2000 [1; 2; 3; 250; 251]).
Example C11_ex1 : holds (smem c11_store) 2000 [1; 2; 3; 250; 251].
Proof. repeat split; vm_compute; congruence. Qed.
Example C11_ex2 : returns std_env "stdlib.buff-to-uint-be" [VI32 2000; VI32 3] c11_store (u128 66051).
Proof. apply (calls_compute _ 60); [vm_compute; reflexivity|discriminate]. Qed.
Example C11_ex3 : returns std_env "stdlib.buff-to-uint-le" [VI32 2000; VI32 3] c11_store (u128 197121).
Proof. apply (calls_compute _ 60); [vm_compute; reflexivity|discriminate]. Qed.
