(** * C24, C25: effects and termination of the runtime library *)
From Coq Require Import ZArith String List Bool Lia.
Import ListNotations.
From Verif Require Import Wasm Std StdEnv Spec SpecBytes SpecUtf8 WasmLogic ParseSpecs ParseIntProofs Effects
  PropArith PropStrings PropBytes PropNames PropUtf8 PropSearch.
Open Scope string_scope.
Open Scope Z_scope.

(** the exported (and helper) functions that compute without touching the store *)
Definition pure_functions : list string :=
  ["stdlib.add-int128"; "stdlib.add-int"; "stdlib.add-uint"; "stdlib.sub-int128"; "stdlib.sub-int"; "stdlib.sub-uint";
   "stdlib.mul-int128"; "stdlib.mul-uint"; "stdlib.mul-int"; "stdlib.div-int128"; "stdlib.div-uint"; "stdlib.div-int";
   "stdlib.mod-uint"; "stdlib.mod-int"; "stdlib.lt-uint"; "stdlib.gt-uint"; "stdlib.le-uint"; "stdlib.ge-uint";
   "stdlib.lt-int"; "stdlib.gt-int"; "stdlib.le-int"; "stdlib.ge-int"; "stdlib.lt-buff"; "stdlib.gt-buff";
   "stdlib.le-buff"; "stdlib.ge-buff"; "log2"; "stdlib.log2-uint"; "stdlib.log2-int"; "stdlib.sqrti-uint";
   "stdlib.sqrti-int"; "stdlib.bit-and"; "stdlib.bit-not"; "stdlib.bit-or"; "stdlib.bit-xor"; "stdlib.bit-shift-left";
   "stdlib.bit-shift-right-uint"; "stdlib.bit-shift-right-int"; "clz-int128"; "pow-inner"; "stdlib.pow-uint";
   "stdlib.pow-int"; "hash160-f1"; "hash160-f2"; "hash160-f3"; "hash160-f4"; "hash160-f5"; "stdlib.load-i32-be";
   "stdlib.buff-to-uint-be"; "stdlib.buff-to-uint-le"; "stdlib.not"; "stdlib.is-valid-contract-name"; "stdlib.is-alpha";
   "stdlib.is-valid-char"; "stdlib.is-transient"; "stdlib.string-to-uint"; "stdlib.utf8-to-uint"; "stdlib.string-to-int";
   "stdlib.utf8-to-int"; "stdlib.to-uint"; "stdlib.to-int"; "stdlib.is-valid-string-ascii"; "compare-clarity-names";
   "stdlib.bsearch-clarity-name"; "skip-int128"; "skip-buffer"; "skip-boolean-or-none"; "skip-principal"; "skip-contract";
   "skip-string-ascii"; "skip-string-utf8"; "stdlib.check-clarity-name"].
(** those that write memory only *)
Definition memory_functions : list string :=
  (["stdlib.sha256-buf"; "stdlib.sha256-int"; "extend-data"; "block64"; "working-vars"; "hash160-pad"; "stdlib.store-i32-be";
   "stdlib.store-i64-be"; "stdlib.uint-to-string"; "stdlib.int-to-string"; "stdlib.uint-to-utf8"; "stdlib.int-to-utf8";
   "stdlib.sha512-buf"; "stdlib.sha512-int"; "pad-sha512-data"; "process-sha512-block"; "calculate-sha512";
   "store-calculated-sha512"; "stdlib.convert-scalars-to-utf8"; "stdlib.utf8-to-string-utf8"] ++ pure_functions)%list.

(** C24: for any arguments (also invalid addresses) and any store, a pure function
    that returns leaves memory, globals and host state as they were; if it aborts,
    nothing but the runtime error code may have changed. *)
Theorem C24_pure_functions : forall {HS} (E : env HS), has_std E -> forall f args st r,
  In f pure_functions -> calls E f args st r ->
  match r with
  | RVals _ st' => st' = st
  | RTrap _ st' => st' = st \/ exists c, st' = with_glob st (gset (sglob st) "runtime-error-code" c)
  | _ => True
  end.
Proof.
  intros HS E HE f args st r Hf Hc.
  assert (K := calls_quiet E HE false pure_functions ltac:(vm_compute; reflexivity) f args st r Hf Hc).
  destruct r; auto; cbn [keeps_r'] in K.
  - destruct K as (_ & _ & _ & K). auto.
  - destruct K as [(_ & _ & _ & K)|(st1 & c & (_ & _ & _ & K) & ->)]; [auto|]. rewrite (K eq_refl). eauto.
Qed.

(** C24: the printing, hashing and text-conversion functions touch neither globals
    (but the runtime error code, when aborting) nor host state nor memory size *)
Theorem C24_memory_functions : forall {HS} (E : env HS), has_std E -> forall f args st r,
  In f memory_functions -> calls E f args st r ->
  match r with
  | RVals _ st' => exists m', msize m' = msize (smem st) /\ st' = with_mem st m'
  | RTrap _ st' => exists m', msize m' = msize (smem st) /\
      (st' = with_mem st m' \/ exists c, st' = with_glob (with_mem st m') (gset (sglob st) "runtime-error-code" c))
  | _ => True
  end.
Proof.
  intros HS E HE f args st r Hf Hc.
  assert (K := calls_quiet E HE true memory_functions ltac:(vm_compute; reflexivity) f args st r Hf Hc).
  assert (W : forall st' : store HS, sglob st' = sglob st -> shost st' = shost st -> st' = with_mem st (smem st')).
  { intros [m g h]; cbn [sglob shost smem with_mem]. unfold with_mem. intros -> ->. reflexivity. }
  destruct r as [vs st'|k st'| |]; auto; cbn [keeps_r'] in K.
  - destruct K as (G & H & M & _). exists (smem st'). auto.
  - destruct K as [(G & H & M & _)|(st1 & c & (G & H & M & _) & ->)].
    + exists (smem st'). auto.
    + exists (smem st1). split; [exact M|]. right. exists c. rewrite G. rewrite <- (W st1 G H). reflexivity.
Qed.

(** ** Termination *)
Definition halts {HS} (E : env HS) (f : string) (args : list val) (st : store HS) : Prop :=
  exists r, calls E f args st r /\ match r with RVals _ _ | RTrap _ _ => True | _ => False end.

Section Halts.
Context {HS : Type} (E : env HS) (HE : has_std E).
Lemma returns_halts f args st vs : returns E f args st vs -> halts E f args st.
Proof. intro H. eexists. split; [exact H|exact I]. Qed.
Lemma aborts_halts f args st c : aborts E f args st c -> halts E f args st.
Proof. intro H. eexists. split; [exact H|exact I]. Qed.
Lemma exact_halts f rep (fits : Z -> Prop) a b r c st : (fits r \/ ~ fits r) ->
  exact_or_aborts E f rep fits a b r c -> halts E f (rep a ++ rep b)%list st.
Proof.
  intros [F|F] H; destruct (H st) as [H1 H2]; [eapply returns_halts|eapply aborts_halts]; eauto.
Qed.
Lemma u128_dec r : is_u128 r \/ ~ is_u128 r. Proof. unfold is_u128. lia. Qed.
Lemma i128_dec r : is_i128 r \/ ~ is_i128 r. Proof. unfold is_i128. lia. Qed.
End Halts.

Definition uint_binary : list string :=
  ["stdlib.add-uint"; "stdlib.sub-uint"; "stdlib.mul-uint"; "stdlib.div-uint"; "stdlib.mod-uint"; "stdlib.pow-uint";
   "stdlib.lt-uint"; "stdlib.gt-uint"; "stdlib.le-uint"; "stdlib.ge-uint"; "stdlib.bit-and"; "stdlib.bit-or"; "stdlib.bit-xor";
   "stdlib.bit-shift-left"; "stdlib.bit-shift-right-uint"].
Definition int_binary : list string :=
  ["stdlib.add-int"; "stdlib.sub-int"; "stdlib.mul-int"; "stdlib.div-int"; "stdlib.mod-int"; "stdlib.pow-int";
   "stdlib.lt-int"; "stdlib.gt-int"; "stdlib.le-int"; "stdlib.ge-int"; "stdlib.bit-and"; "stdlib.bit-or"; "stdlib.bit-xor"].
Definition uint_unary : list string := ["stdlib.log2-uint"; "stdlib.sqrti-uint"; "stdlib.bit-not"; "stdlib.to-int"].
Definition int_unary : list string := ["stdlib.log2-int"; "stdlib.sqrti-int"; "stdlib.bit-not"; "stdlib.to-uint"].

Ltac each H := cbn [In] in H; repeat match type of H with _ \/ _ => destruct H as [H|H] end; try contradiction; try subst.

(** C25: integer functions end for all operands, in any store *)
Theorem C25_uint_binary_halts_partial : forall {HS} (E : env HS), has_std E -> forall f a b st,
  In f uint_binary -> is_u128 a -> is_u128 b -> halts E f (u128 a ++ u128 b)%list st.
Proof.
  intros HS E HE f a b st Hf Ha Hb. unfold uint_binary in Hf. each Hf.
  - eapply exact_halts; [apply u128_dec|apply C01_add_uint; auto].
  - assert (D : (a < b /\ b / 2 ^ 64 = 2 ^ 64 - 1 /\ a mod 2 ^ 64 < b mod 2 ^ 64) \/
                ~ (a < b /\ b / 2 ^ 64 = 2 ^ 64 - 1 /\ a mod 2 ^ 64 < b mod 2 ^ 64)) by lia.
    destruct D as [(D1 & D2 & D3)|D].
    + eapply returns_halts. eapply C02_sub_uint_wrong_set; eauto.
    + eapply exact_halts; [apply u128_dec|apply C02_sub_uint_partial; auto].
  - eapply exact_halts; [apply u128_dec|apply C03_mul_uint; auto].
  - destruct (C04_div_uint E HE a b st Ha Hb) as [H1 H2]. destruct (Z.eq_dec b 0); [eapply aborts_halts|eapply returns_halts]; eauto.
  - destruct (C04_mod_uint E HE a b st Ha Hb) as [H1 H2]. destruct (Z.eq_dec b 0); [eapply aborts_halts|eapply returns_halts]; eauto.
  - eapply exact_halts; [apply u128_dec|apply C05_pow_uint; auto].
  - eapply returns_halts. eapply (C07_compare_uint E HE "lt"); eauto. cbn; auto.
  - eapply returns_halts. eapply (C07_compare_uint E HE "gt"); eauto. cbn; auto.
  - eapply returns_halts. eapply (C07_compare_uint E HE "le"); eauto. cbn; auto.
  - eapply returns_halts. eapply (C07_compare_uint E HE "ge"); eauto. cbn; auto 6.
  - eapply returns_halts. apply C09_bit_and_uint; auto.
  - eapply returns_halts. apply C09_bit_or_uint; auto.
  - eapply returns_halts. apply C09_bit_xor_uint; auto.
  - eapply returns_halts. apply C09_shift_left_uint; auto.
  - eapply returns_halts. apply C09_shift_right_uint; auto.
Qed.

Theorem C25_int_binary_halts_partial : forall {HS} (E : env HS), has_std E -> forall f a b st,
  In f int_binary -> is_i128 a -> is_i128 b -> halts E f (i128 a ++ i128 b)%list st.
Proof.
  intros HS E HE f a b st Hf Ha Hb. unfold int_binary in Hf. each Hf.
  - eapply exact_halts; [apply i128_dec|apply C01_add_int; auto].
  - eapply exact_halts; [apply i128_dec|apply C02_sub_int; auto].
  - assert (D : (a * b = - 2 ^ 127 /\ a <> 1 /\ b <> 1) \/ ~ (a * b = - 2 ^ 127 /\ a <> 1 /\ b <> 1)) by lia.
    destruct D as [(D1 & D2 & D3)|D].
    + eapply aborts_halts. eapply C03_mul_int_wrong_set; eauto.
    + eapply exact_halts; [apply i128_dec|apply C03_mul_int_partial; auto].
  - destruct (C04_div_int E HE a b st Ha Hb) as (H1 & H2 & H3).
    destruct (Z.eq_dec b 0); [eapply aborts_halts; eauto|].
    assert (D : (a = - 2 ^ 127 /\ b = -1) \/ ~ (a = - 2 ^ 127 /\ b = -1)) by lia.
    destruct D as [[D1 D2]|D]; [eapply aborts_halts|eapply returns_halts]; eauto.
  - destruct (C04_mod_int E HE a b st Ha Hb) as [H1 H2]. destruct (Z.eq_dec b 0); [eapply aborts_halts|eapply returns_halts]; eauto.
  - destruct (Z.lt_ge_cases b 0) as [Hb0|Hb0].
    + destruct (C05_pow_int_negative_exponent E HE a b st Ha Hb Hb0) as [H1 H2].
      assert (D : (a = 0 \/ a = 1) \/ (a <> 0 /\ a <> 1)) by lia.
      destruct D as [D|[D1 D2]]; [eapply returns_halts|eapply aborts_halts]; eauto.
    + assert (D : (a = -1 /\ 127 < b) \/ ~ (a = -1 /\ 127 < b)) by lia.
      destruct D as [[-> D]|D].
      * eapply aborts_halts. eapply C05_pow_int_wrong_set; eauto.
      * eapply exact_halts; [apply i128_dec|apply C05_pow_int_partial; auto].
  - eapply returns_halts. eapply (C07_compare_int E HE "lt"); eauto. cbn; auto.
  - eapply returns_halts. eapply (C07_compare_int E HE "gt"); eauto. cbn; auto.
  - eapply returns_halts. eapply (C07_compare_int E HE "le"); eauto. cbn; auto.
  - eapply returns_halts. eapply (C07_compare_int E HE "ge"); eauto. cbn; auto 6.
  - eapply returns_halts. apply C09_bit_and_int; auto.
  - eapply returns_halts. apply C09_bit_or_int; auto.
  - eapply returns_halts. apply C09_bit_xor_int; auto.
Qed.

Theorem C25_int_shifts_halt_partial : forall {HS} (E : env HS), has_std E -> forall a b st,
  is_i128 a -> is_u128 b ->
  halts E "stdlib.bit-shift-left" (i128 a ++ u128 b)%list st /\
  halts E "stdlib.bit-shift-right-int" (i128 a ++ u128 b)%list st.
Proof.
  intros HS E HE a b st Ha Hb. split; eapply returns_halts; [apply C09_shift_left_int|apply C09_shift_right_int]; auto.
Qed.

Theorem C25_unary_halts_partial : forall {HS} (E : env HS), has_std E -> forall f a st,
  (In f uint_unary -> is_u128 a -> halts E f (u128 a) st) /\
  (In f int_unary -> is_i128 a -> halts E f (i128 a) st).
Proof.
  intros HS E HE f a st. split; intros Hf Ha.
  - unfold uint_unary in Hf. each Hf.
    + destruct (C06_log2_uint E HE a st Ha) as [H1 H2].
      destruct (Z.eq_dec a 0) as [->|Hn]; [eapply aborts_halts; eauto|].
      eapply returns_halts. apply (H1 (Z.log2 a)); [|apply Z.log2_nonneg].
      unfold is_u128 in Ha. rewrite Z.add_1_r. apply Z.log2_spec. lia.
    + destruct (C06_sqrti_uint E HE a st Ha) as (r & _ & _ & H). eapply returns_halts; eauto.
    + eapply returns_halts. apply C09_bit_not_uint; auto.
    + destruct (C10_to_int E HE a st Ha) as [H1 H2].
      destruct (Z.lt_ge_cases a (2 ^ 127)); [eapply returns_halts|eapply aborts_halts]; eauto.
  - unfold int_unary in Hf. each Hf.
    + destruct (C06_log2_int E HE a st Ha) as [H1 H2].
      destruct (Z.le_gt_cases a 0) as [Hn|Hn]; [eapply aborts_halts; eauto|].
      eapply returns_halts. apply (H1 (Z.log2 a)); [|apply Z.log2_nonneg].
      rewrite Z.add_1_r. apply Z.log2_spec. lia.
    + destruct (C06_sqrti_int E HE a st Ha) as [H1 H2].
      destruct (Z.lt_ge_cases a 0) as [H|H]; [eapply aborts_halts; eauto|].
      destruct (H1 H) as (r & _ & _ & H'). eapply returns_halts; eauto.
    + eapply returns_halts. apply C09_bit_not_int; auto.
    + destruct (C10_to_uint E HE a st Ha) as [H1 H2].
      destruct (Z.lt_ge_cases a 0); [eapply aborts_halts|eapply returns_halts]; eauto.
Qed.

(** C25: functions on buffers and strings in memory end for all contents and lengths *)
Theorem C25_buffers_halt_partial : forall {HS} (E : env HS), has_std E -> forall a b xs ys st,
  holds (smem st) a xs -> holds (smem st) b ys ->
  (forall f, In f ["stdlib.lt-buff"; "stdlib.gt-buff"; "stdlib.le-buff"; "stdlib.ge-buff"] ->
     halts E f [VI32 a; vlen xs; VI32 b; vlen ys] st) /\
  (16 <= a -> halts E "stdlib.buff-to-uint-be" [VI32 a; vlen xs] st) /\
  (a + 16 <= msize (smem st) -> halts E "stdlib.buff-to-uint-le" [VI32 a; vlen xs] st) /\
  halts E "stdlib.is-valid-string-ascii" [VI32 a; vlen xs] st /\
  (a + 16 <= msize (smem st) -> halts E "stdlib.is-valid-contract-name" [VI32 a; vlen xs] st) /\
  (xs <> [] -> ys <> [] -> halts E "compare-clarity-names" [VI32 a; vlen xs; VI32 b; vlen ys] st).
Proof.
  intros HS E HE a b xs ys st Hx Hy.
  split; [|split; [|split; [|split; [|split]]]].
  - intros f Hf. each Hf.
    + destruct (C08_lt_buff E HE a b xs ys st Hx Hy) as (r & H & _). eapply returns_halts; eauto.
    + destruct (C08_gt_buff E HE a b xs ys st Hx Hy) as (r & H & _). eapply returns_halts; eauto.
    + destruct (C08_le_buff E HE a b xs ys st Hx Hy) as (r & H & _). eapply returns_halts; eauto.
    + destruct (C08_ge_buff E HE a b xs ys st Hx Hy) as (r & H & _). eapply returns_halts; eauto.
  - intro Ha. destruct (C11_buff_to_uint_be E HE a xs st Ha Hx) as [H1 H2].
    destruct (Nat.le_gt_cases (length xs) 16); [eapply returns_halts|eapply aborts_halts]; eauto.
  - intro Ha. destruct (C11_buff_to_uint_le_partial E HE a xs st Hx Ha) as [H1 H2].
    destruct (Nat.le_gt_cases (length xs) 16); [eapply returns_halts|eapply aborts_halts]; eauto.
  - destruct (C20_is_valid_string_ascii E HE a xs st Hx) as (r & H & _). eapply returns_halts; eauto.
  - intro Ha. destruct (C19_contract_name_partial E HE a xs st Hx (fun _ => Ha)) as (r & H & _). eapply returns_halts; eauto.
  - intros Hx0 Hy0. destruct (C22_compare_names E HE a xs b ys st Hx Hy Hx0 Hy0) as (r & H & _). eapply returns_halts; eauto.
Qed.

Theorem C25_parsing_halts_partial : forall {HS} (E : env HS), has_std E -> forall a s st,
  holds (smem st) a s -> a < msize (smem st) ->
  halts E "stdlib.string-to-uint" [VI32 a; vlen s] st /\ halts E "stdlib.string-to-int" [VI32 a; vlen s] st.
Proof.
  intros HS E HE a s st Hs Ha. destruct (C12_long_strings_none E HE a s st Hs) as [L1 L2]. split.
  - destruct (Nat.le_gt_cases (length s) 39) as [H|H]; [|eapply returns_halts; eauto].
    assert (D : (forallb is_digit s = true /\ 2 ^ 128 + 4 <= dec_value s /\ dec_value s mod 10 <= 5) \/
              ~ (forallb is_digit s = true /\ 2 ^ 128 + 4 <= dec_value s /\ dec_value s mod 10 <= 5)).
    { destruct (forallb is_digit s); [|right; intros [? _]; discriminate].
      destruct (Z.le_gt_cases (2 ^ 128 + 4) (dec_value s)); [|right; lia].
      destruct (Z.le_gt_cases (dec_value s mod 10) 5); [left; auto|right; lia]. }
    destruct D as [(D1 & D2 & D3)|D].
    + eapply returns_halts. eapply C12_uint_wrong_set; eauto.
    + eapply returns_halts. apply C12_string_to_uint_partial; auto.
  - destruct (Nat.le_gt_cases (length (unsign s)) 39) as [H|H]; [|eapply returns_halts; eauto].
    eapply returns_halts. apply C12_string_to_int_partial; auto.
Qed.

Theorem C25_printing_halts_partial : forall {HS} (E : env HS), has_std E -> forall n off st,
  room (smem st) off 4 160 -> room (smem st) off 1 40 ->
  (is_u128 n -> halts E "stdlib.uint-to-string" (u128 n ++ [VI32 off])%list st /\
                halts E "stdlib.uint-to-utf8" (u128 n ++ [VI32 off])%list st) /\
  (is_i128 n -> halts E "stdlib.int-to-string" (i128 n ++ [VI32 off])%list st /\
                halts E "stdlib.int-to-utf8" (i128 n ++ [VI32 off])%list st).
Proof.
  intros HS E HE n off st R4 R1.
  assert (R4' : room (smem st) off 4 156) by (unfold room in *; lia).
  assert (R1' : room (smem st) off 1 39) by (unfold room in *; lia).
  split; intro Hn; split.
  - destruct (C13_uint_to_ascii E HE n off st Hn R1') as (s & m' & _ & _ & _ & H). eexists; split; [exact H|exact I].
  - destruct (C13_uint_to_utf8 E HE n off st Hn R4') as (s & m' & _ & _ & _ & H). eexists; split; [exact H|exact I].
  - destruct (C13_int_to_ascii E HE n off st Hn R1) as (s & m' & _ & _ & _ & H). eexists; split; [exact H|exact I].
  - destruct (C13_int_to_utf8 E HE n off st Hn R4) as (s & m' & _ & _ & _ & H). eexists; split; [exact H|exact I].
Qed.

(** concrete runs *)
Example ex_halts : halts (@std_env unit) "stdlib.pow-uint" (u128 2 ++ u128 127)%list blank_store.
Proof. apply C25_uint_binary_halts_partial; [apply std_env_ok|cbn; auto 10|unfold is_u128; lia|unfold is_u128; lia]. Qed.
Example ex_pure : exists r, calls (@std_env unit) "stdlib.to-uint" (i128 (-1)) blank_store r /\
  match r with RTrap _ st' => exists c, st' = with_glob blank_store (gset (sglob blank_store) "runtime-error-code" c) | _ => False end.
Proof.
  eexists. split; [apply (C10_to_uint std_env std_env_ok (-1) blank_store); [unfold is_i128|]; lia|].
  eexists. reflexivity.
Qed.

Print Assumptions C24_pure_functions.
Print Assumptions C24_memory_functions.
Print Assumptions C25_uint_binary_halts_partial.
Print Assumptions C25_int_binary_halts_partial.
Print Assumptions C25_int_shifts_halt_partial.
Print Assumptions C25_unary_halts_partial.
Print Assumptions C25_buffers_halt_partial.
Print Assumptions C25_parsing_halts_partial.
Print Assumptions C25_printing_halts_partial.
