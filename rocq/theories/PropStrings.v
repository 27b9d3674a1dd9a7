(** * Properties C12, C13, C14: integers and decimal strings. *)
From Coq Require Import ZArith String List Bool Lia.
Import ListNotations.
From Verif Require Import Wasm Std StdEnv WasmLogic Spec SpecBytes Mem ArithProofs BitProofs ArithFacts ParseProofs ParseIntProofs ParseSpecs PrintProofs.
Open Scope string_scope.
Open Scope list_scope.
Open Scope Z_scope.

Definition scalars (s : list Z) : Prop := Forall (fun c => 0 <= c < 2 ^ 32) s.

Lemma vopt_vu o : vopt vu o = vopt u128 o.
Proof. destruct o; cbn [vopt]; [rewrite vu_u128|]; reflexivity. Qed.

(** ** C12: full statements.  A string-ascii argument is its address and byte length; a
    string-utf8 argument is the address and byte length of its 4-byte scalars. *)
Definition string_to_uint_correct {HS} (E : env HS) : Prop := forall a s st,
  holds (smem st) a s ->
  returns E "stdlib.string-to-uint" [VI32 a; vlen s] st (vopt u128 (uint_of_string s)).
Definition utf8_to_uint_correct {HS} (E : env HS) : Prop := forall a s st,
  scalars s -> holds (smem st) a (utf8_mem s) ->
  returns E "stdlib.utf8-to-uint" [VI32 a; VI32 (4 * Z.of_nat (length s))] st (vopt u128 (uint_of_string s)).
Definition string_to_int_correct {HS} (E : env HS) : Prop := forall a s st,
  holds (smem st) a s -> a < msize (smem st) ->
  returns E "stdlib.string-to-int" [VI32 a; vlen s] st (vopt i128 (int_of_string s)).

(** what is proved: all strings of at most 39 characters (39 digits after the sign, for int) except
    the misparsed digit strings: those whose value is at least 2^128+4 and ends in a digit <= 5 *)
Theorem C12_string_to_uint_partial : forall {HS} (E : env HS), has_std E -> forall a s st,
  holds (smem st) a s -> (length s <= 39)%nat ->
  ~ (forallb is_digit s = true /\ 2 ^ 128 + 4 <= dec_value s /\ dec_value s mod 10 <= 5) ->
  returns E "stdlib.string-to-uint" [VI32 a; vlen s] st (vopt u128 (uint_of_string s)).
Proof.
  intros HS E HE a s st H Hl Hm. apply wpf_calls. apply (string_to_uint_wp E HE); [exact H|].
  fold (ures s). rewrite vopt_vu. rewrite (proj2 (ures_spec s Hl) Hm). reflexivity.
Qed.
Print Assumptions C12_string_to_uint_partial.

Theorem C12_utf8_to_uint_partial : forall {HS} (E : env HS), has_std E -> forall a s st,
  scalars s -> holds (smem st) a (utf8_mem s) -> (length s <= 39)%nat ->
  ~ (forallb is_digit s = true /\ 2 ^ 128 + 4 <= dec_value s /\ dec_value s mod 10 <= 5) ->
  returns E "stdlib.utf8-to-uint" [VI32 a; VI32 (4 * Z.of_nat (length s))] st (vopt u128 (uint_of_string s)).
Proof.
  intros HS E HE a s st HF H Hl Hm. apply wpf_calls. apply (utf8_to_uint_wp E HE); [exact HF|exact H|].
  fold (ures s). rewrite vopt_vu. rewrite (proj2 (ures_spec s Hl) Hm). reflexivity.
Qed.
Print Assumptions C12_utf8_to_uint_partial.

Theorem C12_string_to_int_partial : forall {HS} (E : env HS), has_std E -> forall a s st,
  holds (smem st) a s -> a < msize (smem st) -> (length (unsign s) <= 39)%nat ->
  returns E "stdlib.string-to-int" [VI32 a; vlen s] st (vopt i128 (int_of_string s)).
Proof.
  intros HS E HE a s st H Ha Hl. apply wpf_calls. apply (string_to_int_wp E HE); [exact H|lia|].
  rewrite (ires_spec s Hl). reflexivity.
Qed.
Print Assumptions C12_string_to_int_partial.

Theorem C12_utf8_to_int_partial : forall {HS} (E : env HS), has_std E -> forall a s st,
  scalars s -> holds (smem st) a (utf8_mem s) -> a + 4 <= msize (smem st) -> (length (unsign s) <= 39)%nat ->
  returns E "stdlib.utf8-to-int" [VI32 a; VI32 (4 * Z.of_nat (length s))] st (vopt i128 (int_of_string s)).
Proof.
  intros HS E HE a s st HF H Ha Hl. apply wpf_calls. apply (utf8_to_int_wp E HE); [exact HF|exact H|lia|].
  rewrite (ires_spec s Hl). reflexivity.
Qed.
Print Assumptions C12_utf8_to_int_partial.

(** the exact wrong answers on misparsed strings, and the answer on longer strings *)
Theorem C12_uint_wrong_set : forall {HS} (E : env HS), has_std E -> forall a s st,
  holds (smem st) a s -> (length s <= 39)%nat ->
  forallb is_digit s = true -> 2 ^ 128 + 4 <= dec_value s -> dec_value s mod 10 <= 5 ->
  returns E "stdlib.string-to-uint" [VI32 a; vlen s] st (VI32 1 :: u128 (2 ^ 128 - 6 + dec_value s mod 10)).
Proof.
  intros HS E HE a s st H Hl H1 H2 H3. apply wpf_calls. apply (string_to_uint_wp E HE); [exact H|].
  fold (ures s). rewrite vopt_vu. rewrite (proj1 (ures_spec s Hl)); [reflexivity|]. repeat split; auto.
Qed.
Print Assumptions C12_uint_wrong_set.

Theorem C12_uint_utf8_wrong_set : forall {HS} (E : env HS), has_std E -> forall a s st,
  scalars s -> holds (smem st) a (utf8_mem s) -> (length s <= 39)%nat ->
  forallb is_digit s = true -> 2 ^ 128 + 4 <= dec_value s -> dec_value s mod 10 <= 5 ->
  returns E "stdlib.utf8-to-uint" [VI32 a; VI32 (4 * Z.of_nat (length s))] st (VI32 1 :: u128 (2 ^ 128 - 6 + dec_value s mod 10)).
Proof.
  intros HS E HE a s st HF H Hl H1 H2 H3. apply wpf_calls. apply (utf8_to_uint_wp E HE); [exact HF|exact H|].
  fold (ures s). rewrite vopt_vu. rewrite (proj1 (ures_spec s Hl)); [reflexivity|]. repeat split; auto.
Qed.
Print Assumptions C12_uint_utf8_wrong_set.

Theorem C12_long_strings_none : forall {HS} (E : env HS), has_std E -> forall a s st,
  holds (smem st) a s ->
  ((39 < length s)%nat -> returns E "stdlib.string-to-uint" [VI32 a; vlen s] st (vopt u128 None)) /\
  ((39 < length (unsign s))%nat -> a < msize (smem st) ->
     returns E "stdlib.string-to-int" [VI32 a; vlen s] st (vopt i128 None)).
Proof.
  intros HS E HE a s st H. split.
  - intros Hl. apply wpf_calls. apply (string_to_uint_wp E HE); [exact H|].
    fold (ures s). rewrite ures_long by auto. reflexivity.
  - intros Hl Ha. apply wpf_calls. apply (string_to_int_wp E HE); [exact H|lia|].
    rewrite ires_long by auto. reflexivity.
Qed.
Print Assumptions C12_long_strings_none.

(** the full statements are false *)
Definition nines : list Z := repeat 57 38 ++ [53].
Definition zeros1 : list Z := repeat 48 39 ++ [49].
Definition st_with (a : Z) (bs : list Z) : store unit :=
  with_mem blank_store (write_bytes (smem blank_store) a bs).

Ltac holds_tac := split; [vm_compute; discriminate|split; [split; vm_compute; discriminate|vm_compute; reflexivity]].
Lemma returns_det {HS} (E : env HS) f args st a b : returns E f args st a -> returns E f args st b -> a = b.
Proof. intros H K. pose proof (calls_det _ _ _ _ _ _ H K) as C. congruence. Qed.

Theorem C12_string_to_uint_refuted : ~ string_to_uint_correct (@std_env unit).
Proof.
  intros H. specialize (H 2000 nines (st_with 2000 nines)).
  pose proof (C12_uint_wrong_set std_env std_env_ok 2000 nines (st_with 2000 nines)) as W.
  assert (HH : holds (smem (st_with 2000 nines)) 2000 nines) by holds_tac.
  specialize (H HH). specialize (W HH ltac:(vm_compute; lia) eq_refl ltac:(vm_compute; congruence) ltac:(vm_compute; congruence)).
  apply (returns_det _ _ _ _ _ _ H) in W. vm_compute in W. discriminate W.
Qed.
Print Assumptions C12_string_to_uint_refuted.

Theorem C12_utf8_to_uint_refuted : ~ utf8_to_uint_correct (@std_env unit).
Proof.
  intros H. set (st := st_with 2000 (utf8_mem nines)). specialize (H 2000 nines st).
  pose proof (C12_uint_utf8_wrong_set std_env std_env_ok 2000 nines st) as W.
  assert (HF : scalars nines) by (repeat constructor; vm_compute; congruence).
  assert (HH : holds (smem st) 2000 (utf8_mem nines)) by holds_tac.
  specialize (H HF HH). specialize (W HF HH ltac:(vm_compute; lia) eq_refl ltac:(vm_compute; congruence) ltac:(vm_compute; congruence)).
  apply (returns_det _ _ _ _ _ _ H) in W. vm_compute in W. discriminate W.
Qed.
Print Assumptions C12_utf8_to_uint_refuted.

(** a zero-padded in-range int of 40 characters is rejected *)
Theorem C12_string_to_int_refuted : ~ string_to_int_correct (@std_env unit).
Proof.
  intros H. set (st := st_with 2000 zeros1). specialize (H 2000 zeros1 st).
  assert (HH : holds (smem st) 2000 zeros1) by holds_tac.
  specialize (H HH ltac:(reflexivity)).
  destruct (C12_long_strings_none std_env std_env_ok 2000 zeros1 st HH) as [_ W].
  specialize (W ltac:(vm_compute; lia) ltac:(reflexivity)).
  apply (returns_det _ _ _ _ _ _ H) in W. vm_compute in W. discriminate W.
Qed.
Print Assumptions C12_string_to_int_refuted.

Example C12_ex1 : returns std_env "stdlib.string-to-uint" [VI32 2000; vlen nines] (st_with 2000 nines) (VI32 1 :: u128 (2 ^ 128 - 1)).
Proof. apply (calls_compute _ 60); [vm_compute; reflexivity|discriminate]. Qed.
Example C12_ex2 : returns std_env "stdlib.string-to-int" [VI32 2000; VI32 3] (st_with 2000 [45; 52; 50]) (VI32 1 :: i128 (-42)).
Proof. apply (calls_compute _ 60); [vm_compute; reflexivity|discriminate]. Qed.

(** ** C13.  The text is written at the result address; the address and length are returned, and
    nothing else changes.  39 (40) is the number of characters of the largest uint (int). *)
Definition room (m : mem) (off lo n : Z) : Prop := lo <= off /\ off + n <= msize m /\ msize m + 4 < 2 ^ 32.

Lemma only_holds m m' off n bs : only_changes m m' off n -> 0 <= off -> off + Z.of_nat (length bs) <= msize m -> msize m <= 2 ^ 32 ->
  bytes_at m' off (length bs) = bs -> holds m' off bs.
Proof. intros [H1 H2] Ha Hb Hc Hd. unfold holds. rewrite H1. auto. Qed.

Theorem C13_uint_to_ascii : forall {HS} (E : env HS), has_std E -> forall n off st,
  is_u128 n -> room (smem st) off 1 39 ->
  exists s m', canonical_nat n s /\ holds m' off s /\ only_changes (smem st) m' off (Z.of_nat (length s)) /\
    calls E "stdlib.uint-to-string" (u128 n ++ [VI32 off]) st (RVals [VI32 off; vlen s] (with_mem st m')).
Proof.
  intros HS E HE n off st Hn (R1 & R2 & R3). change (2 ^ 32) with m32 in R3.
  unfold is_u128 in Hn. change (2 ^ 128) with m128 in Hn. unfold u128. rewrite pow64. cbn [app].
  assert (W : wpf E "stdlib.uint-to-string" [VI64 (n mod m64); VI64 (n / m64); VI32 off] st
     (fun r => exists s m', canonical_nat n s /\ holds m' off s /\ only_changes (smem st) m' off (Z.of_nat (length s)) /\
        r = RVals [VI32 off; vlen s] (with_mem st m'))).
  { apply (uint_to_string_wp E HE); auto; try (unfold lim; Z.to_euclidean_division_equations; lia).
    intros m' s HC HB HO Hl. exists s, m'.
    replace (n mod m64 + m64 * (n / m64)) with n in HC by (rewrite (Z.div_mod n m64) at 1; lia).
    split; [exact HC|]. split; [eapply only_holds; eauto; change (2 ^ 32) with m32; lia|]. split; [exact HO|reflexivity]. }
  destruct W as (f0 & r & H & s & m' & H1 & H2 & H3 & ->). exists s, m'. repeat (split; [assumption|]). exists f0. exact H.
Qed.
Print Assumptions C13_uint_to_ascii.

Theorem C13_uint_to_utf8 : forall {HS} (E : env HS), has_std E -> forall n off st,
  is_u128 n -> room (smem st) off 4 156 ->
  exists s m', canonical_nat n s /\ holds m' off (utf8_mem s) /\ only_changes (smem st) m' off (4 * Z.of_nat (length s)) /\
    calls E "stdlib.uint-to-utf8" (u128 n ++ [VI32 off]) st (RVals [VI32 off; VI32 (4 * Z.of_nat (length s))] (with_mem st m')).
Proof.
  intros HS E HE n off st Hn (R1 & R2 & R3). change (2 ^ 32) with m32 in R3.
  unfold is_u128 in Hn. change (2 ^ 128) with m128 in Hn. unfold u128. rewrite pow64. cbn [app].
  assert (W : wpf E "stdlib.uint-to-utf8" [VI64 (n mod m64); VI64 (n / m64); VI32 off] st
     (fun r => exists s m', canonical_nat n s /\ holds m' off (utf8_mem s) /\ only_changes (smem st) m' off (4 * Z.of_nat (length s)) /\
        r = RVals [VI32 off; VI32 (4 * Z.of_nat (length s))] (with_mem st m'))).
  { apply (uint_to_utf8_wp E HE); auto; try (unfold lim; Z.to_euclidean_division_equations; lia).
    intros m' s HC HB HO Hl. exists s, m'.
    replace (n mod m64 + m64 * (n / m64)) with n in HC by (rewrite (Z.div_mod n m64) at 1; lia).
    pose proof (utf8_mem_len s) as HL. assert (HLn : length (utf8_mem s) = (4 * length s)%nat) by lia.
    split; [exact HC|]. split; [eapply only_holds; eauto; change (2 ^ 32) with m32; rewrite ?HLn; try lia; auto|]. split; [exact HO|reflexivity]. }
  destruct W as (f0 & r & H & s & m' & H1 & H2 & H3 & ->). exists s, m'. repeat (split; [assumption|]). exists f0. exact H.
Qed.
Print Assumptions C13_uint_to_utf8.

Lemma sx_i128 n : is_i128 n -> let u := n mod 2 ^ 128 in sx (u mod m64) (u / m64) = n /\ lim (u mod m64) /\ lim (u / m64).
Proof.
  unfold is_i128. change (2 ^ 127) with h128. change (2 ^ 128) with m128. intros H. cbv zeta. unfold sx, lim.
  assert (Hu : n mod m128 = if n <? 0 then n + m128 else n).
  { destruct (Z.ltb_spec n 0); Z.to_euclidean_division_equations; lia. }
  set (u := n mod m128) in *. pose proof (Z.div_mod u m64 ltac:(lia)). pose proof (Z.mod_pos_bound u m64 ltac:(lia)).
  set (l := u mod m64) in *. set (h := u / m64) in *. clearbody l h u.
  destruct (Z.ltb_spec h h64), (Z.ltb_spec n 0); lia.
Qed.

Theorem C13_int_to_ascii : forall {HS} (E : env HS), has_std E -> forall n off st,
  is_i128 n -> room (smem st) off 1 40 ->
  exists s m', canonical n s /\ holds m' off s /\ only_changes (smem st) m' off (Z.of_nat (length s)) /\
    calls E "stdlib.int-to-string" (i128 n ++ [VI32 off]) st (RVals [VI32 off; vlen s] (with_mem st m')).
Proof.
  intros HS E HE n off st Hn (R1 & R2 & R3). change (2 ^ 32) with m32 in R3.
  destruct (sx_i128 n Hn) as (S1 & S2 & S3). unfold i128, u128. rewrite pow64. cbn [app].
  assert (W : wpf E "stdlib.int-to-string" [VI64 (n mod 2 ^ 128 mod m64); VI64 (n mod 2 ^ 128 / m64); VI32 off] st
     (fun r => exists s m', canonical n s /\ holds m' off s /\ only_changes (smem st) m' off (Z.of_nat (length s)) /\
        r = RVals [VI32 off; vlen s] (with_mem st m'))).
  { apply (int_to_string_wp E HE); auto. rewrite S1.
    intros m' s HC HB HO Hl. exists s, m'.
    split; [exact HC|]. split; [eapply only_holds; eauto; change (2 ^ 32) with m32; lia|]. split; [exact HO|reflexivity]. }
  destruct W as (f0 & r & H & s & m' & H1 & H2 & H3 & ->). exists s, m'. repeat (split; [assumption|]). exists f0. exact H.
Qed.
Print Assumptions C13_int_to_ascii.

Theorem C13_int_to_utf8 : forall {HS} (E : env HS), has_std E -> forall n off st,
  is_i128 n -> room (smem st) off 4 160 ->
  exists s m', canonical n s /\ holds m' off (utf8_mem s) /\ only_changes (smem st) m' off (4 * Z.of_nat (length s)) /\
    calls E "stdlib.int-to-utf8" (i128 n ++ [VI32 off]) st (RVals [VI32 off; VI32 (4 * Z.of_nat (length s))] (with_mem st m')).
Proof.
  intros HS E HE n off st Hn (R1 & R2 & R3). change (2 ^ 32) with m32 in R3.
  destruct (sx_i128 n Hn) as (S1 & S2 & S3). unfold i128, u128. rewrite pow64. cbn [app].
  assert (W : wpf E "stdlib.int-to-utf8" [VI64 (n mod 2 ^ 128 mod m64); VI64 (n mod 2 ^ 128 / m64); VI32 off] st
     (fun r => exists s m', canonical n s /\ holds m' off (utf8_mem s) /\ only_changes (smem st) m' off (4 * Z.of_nat (length s)) /\
        r = RVals [VI32 off; VI32 (4 * Z.of_nat (length s))] (with_mem st m'))).
  { apply (int_to_utf8_wp E HE); auto. rewrite S1.
    intros m' s HC HB HO Hl. exists s, m'.
    pose proof (utf8_mem_len s) as HL. assert (HLn : length (utf8_mem s) = (4 * length s)%nat) by lia.
    split; [exact HC|]. split; [eapply only_holds; eauto; change (2 ^ 32) with m32; rewrite ?HLn; try lia; auto|]. split; [exact HO|reflexivity]. }
  destruct W as (f0 & r & H & s & m' & H1 & H2 & H3 & ->). exists s, m'. repeat (split; [assumption|]). exists f0. exact H.
Qed.
Print Assumptions C13_int_to_utf8.

(** the canonical text of a number is unique *)
Lemma canonical_nat_len n s : canonical_nat n s -> length s <> 1%nat -> 10 ^ (Z.of_nat (length s) - 1) <= n.
Proof.
  intros (H1 & H2 & H3 & [H4|H4]) Hl; [contradiction|]. destruct s as [|c s]; [contradiction|].
  cbn [forallb hd] in *. apply andb_true_iff in H2 as [Hc Hs]. destruct (digit_small c Hc) as [_ Hc2].
  apply dec_bound in Hs. rewrite dec_cons in H3. cbn [length]. rewrite Nat2Z.inj_succ.
  replace (Z.succ (Z.of_nat (length s)) - 1) with (Z.of_nat (length s)) by lia.
  assert (0 < 10 ^ Z.of_nat (length s)) by (apply Z.pow_pos_nonneg; lia). nia.
Qed.
Lemma dec_inj s : forall t, forallb is_digit s = true -> forallb is_digit t = true -> length s = length t -> dec_value s = dec_value t -> s = t.
Proof.
  induction s as [|c s IH]; intros [|d t] Hs Ht Hl He; try discriminate; [reflexivity|].
  cbn [forallb] in *. apply andb_true_iff in Hs as [Hc Hs]. apply andb_true_iff in Ht as [Hd Ht].
  cbn [length] in Hl. assert (Hl' : length s = length t) by lia. rewrite !dec_cons, Hl' in He.
  destruct (digit_small c Hc) as [_ ?]. destruct (digit_small d Hd) as [_ ?].
  pose proof (dec_bound s Hs) as B1. pose proof (dec_bound t Ht) as B2. rewrite Hl' in B1.
  assert (c = d) by nia. subst d. f_equal. apply IH; auto; lia.
Qed.
Lemma canonical_nat_unique n s t : canonical_nat n s -> canonical_nat n t -> s = t.
Proof.
  intros Hs Ht. assert (Hl : length s = length t).
  { pose proof (canonical_nat_len n s Hs) as L1. pose proof (canonical_nat_len n t Ht) as L2.
    destruct Hs as (S1 & S2 & S3 & _), Ht as (T1 & T2 & T3 & _).
    pose proof (dec_bound s S2) as B1. pose proof (dec_bound t T2) as B2. rewrite S3 in B1. rewrite T3 in B2.
    destruct (lt_eq_lt_dec (length s) (length t)) as [[H|H]|H]; [|auto|]; exfalso.
    - destruct s; [contradiction|]. cbn [length] in H, B1. specialize (L2 ltac:(lia)).
      assert (10 ^ Z.of_nat (S (length s)) <= 10 ^ (Z.of_nat (length t) - 1)) by (apply Z.pow_le_mono_r; lia). lia.
    - destruct t; [contradiction|]. cbn [length] in H, B2. specialize (L1 ltac:(lia)).
      assert (10 ^ Z.of_nat (S (length t)) <= 10 ^ (Z.of_nat (length s) - 1)) by (apply Z.pow_le_mono_r; lia). lia. }
  destruct Hs as (_ & S2 & S3 & _), Ht as (_ & T2 & T3 & _). apply dec_inj; auto; lia.
Qed.
Theorem C13_canonical_unique : forall n s t, canonical n s -> canonical n t -> s = t.
Proof.
  intros n s t [[H1 H2]|[H1 (r & -> & H2)]] [[H3 H4]|[H3 (r' & -> & H4)]]; try lia.
  - eapply canonical_nat_unique; eauto.
  - f_equal. eapply canonical_nat_unique; eauto.
Qed.
Print Assumptions C13_canonical_unique.

Example C13_ex3 : canonical (-905) [45; 57; 48; 53].
Proof. right. split; [reflexivity|]. eexists. split; [reflexivity|]. repeat split; [discriminate|]. right. discriminate. Qed.
Example C13_ex1 : exists m', calls std_env "stdlib.int-to-string" (i128 (-905) ++ [VI32 2000]) blank_store
    (RVals [VI32 2000; VI32 4] (with_mem blank_store m')) /\ bytes_at m' 2000 4 = [45; 57; 48; 53].
Proof.
  destruct (C13_int_to_ascii std_env std_env_ok (-905) 2000 blank_store) as (s & m' & HC & HB & _ & HK);
    [split; vm_compute; congruence|split; [|split]; vm_compute; congruence|].
  apply (C13_canonical_unique _ _ _ C13_ex3) in HC. subst s. exists m'. split; [exact HK|apply HB].
Qed.
Example C13_ex2 : room (smem blank_store) 2000 4 160.
Proof. split; [|split]; vm_compute; congruence. Qed.
(** ** C14: printing then parsing *)
Lemma canonical_nat_decimal n s : canonical_nat n s -> decimal s = Some n.
Proof. intros (H1 & H2 & H3 & _). unfold decimal. destruct s; [contradiction|]. rewrite H2, H3. reflexivity. Qed.
Lemma canonical_nat_39 n s : canonical_nat n s -> n < 2 ^ 128 -> (length s <= 39)%nat.
Proof.
  intros H Hn. destruct (Nat.eq_dec (length s) 1) as [->|Hl]; [lia|]. apply canonical_nat_len in H; [|auto].
  destruct (Nat.le_gt_cases (length s) 39); [auto|exfalso].
  assert (10 ^ 39 <= 10 ^ (Z.of_nat (length s) - 1)) by (apply Z.pow_le_mono_r; lia).
  assert (2 ^ 128 < 10 ^ 39) by reflexivity. lia.
Qed.
Lemma canonical_uint n s : is_u128 n -> canonical_nat n s -> uint_of_string s = Some n /\ (length s <= 39)%nat /\
  ~ (forallb is_digit s = true /\ 2 ^ 128 + 4 <= dec_value s /\ dec_value s mod 10 <= 5).
Proof.
  intros [Hn1 Hn2] H. split; [|split].
  - unfold uint_of_string. rewrite (canonical_nat_decimal n s H). rewrite (proj2 (Z.ltb_lt n _)) by auto. reflexivity.
  - eapply canonical_nat_39; eauto.
  - intros (_ & H2 & _). destruct H as (_ & _ & H & _). change (2 ^ 128) with m128 in *. lia.
Qed.
Lemma canonical_int n s : is_i128 n -> canonical n s -> int_of_string s = Some n /\ (length (unsign s) <= 39)%nat.
Proof.
  unfold is_i128. change (2 ^ 127) with h128. intros Hn [[H0 H]|[H0 (r & -> & H)]].
  - assert (Hl : (length s <= 39)%nat) by (eapply canonical_nat_39; [exact H|]; change (2 ^ 128) with m128; lia).
    pose proof (canonical_nat_decimal n s H) as HD. destruct H as (H1 & H2 & H3 & _).
    destruct s as [|c s]; [contradiction|]. rewrite int_of_string_cons, unsign_cons.
    cbn [forallb] in H2. apply andb_true_iff in H2 as [Hc _].
    destruct (Z.eqb_spec c 45) as [->|]; [discriminate|]. split; [|auto]. rewrite HD.
    change (2 ^ 127) with h128. destruct ((- h128 <=? n) && (n <? h128)) eqn:?; [reflexivity|lia].
  - assert (Hl : (length r <= 39)%nat) by (eapply canonical_nat_39; [exact H|]; change (2 ^ 128) with m128; lia).
    rewrite int_of_string_cons, unsign_cons. rewrite Z.eqb_refl. split; [|auto].
    rewrite (canonical_nat_decimal _ _ H). cbn [option_map]. rewrite Z.opp_involutive.
    change (2 ^ 127) with h128. destruct ((- h128 <=? n) && (n <? h128)) eqn:?; [reflexivity|lia].
Qed.

Definition roundtrips {HS} (E : env HS) (print parse : string) (rep : Z -> list val) (n off : Z) (st : store HS) : Prop :=
  exists a len st', calls E print (rep n ++ [VI32 off]) st (RVals [VI32 a; VI32 len] st') /\
    calls E parse [VI32 a; VI32 len] st' (RVals (vopt rep (Some n)) st').

Theorem C14_uint_ascii : forall {HS} (E : env HS), has_std E -> forall n off st,
  is_u128 n -> room (smem st) off 1 39 ->
  roundtrips E "stdlib.uint-to-string" "stdlib.string-to-uint" u128 n off st.
Proof.
  intros HS E HE n off st Hn Hr. destruct (C13_uint_to_ascii E HE n off st Hn Hr) as (s & m' & HC & HB & HO & HK).
  exists off, (Z.of_nat (length s)), (with_mem st m'). split; [exact HK|].
  destruct (canonical_uint n s Hn HC) as (H1 & H2 & H3). rewrite <- H1. apply C12_string_to_uint_partial; auto.
Qed.
Print Assumptions C14_uint_ascii.

Theorem C14_int_ascii : forall {HS} (E : env HS), has_std E -> forall n off st,
  is_i128 n -> room (smem st) off 1 40 ->
  roundtrips E "stdlib.int-to-string" "stdlib.string-to-int" i128 n off st.
Proof.
  intros HS E HE n off st Hn Hr. destruct (C13_int_to_ascii E HE n off st Hn Hr) as (s & m' & HC & HB & HO & HK).
  exists off, (Z.of_nat (length s)), (with_mem st m'). split; [exact HK|].
  destruct (canonical_int n s Hn HC) as (H1 & H2). rewrite <- H1. apply C12_string_to_int_partial; auto.
  cbn [smem with_mem]. destruct Hr as (? & ? & ?), HO as [-> _]. lia.
Qed.
Print Assumptions C14_int_ascii.

Lemma digits_scalars s : forallb is_digit s = true -> scalars s.
Proof.
  intros H. apply Forall_forall. intros c Hc. rewrite forallb_forall in H. specialize (H c Hc).
  destruct (digit_small c H). change (2 ^ 32) with m32. lia.
Qed.

Theorem C14_uint_utf8 : forall {HS} (E : env HS), has_std E -> forall n off st,
  is_u128 n -> room (smem st) off 4 156 ->
  roundtrips E "stdlib.uint-to-utf8" "stdlib.utf8-to-uint" u128 n off st.
Proof.
  intros HS E HE n off st Hn Hr. destruct (C13_uint_to_utf8 E HE n off st Hn Hr) as (s & m' & HC & HB & HO & HK).
  exists off, (4 * Z.of_nat (length s)), (with_mem st m'). split; [exact HK|].
  destruct (canonical_uint n s Hn HC) as (H1 & H2 & H3). rewrite <- H1. apply C12_utf8_to_uint_partial; auto.
  apply digits_scalars. apply HC.
Qed.
Print Assumptions C14_uint_utf8.

Theorem C14_int_utf8 : forall {HS} (E : env HS), has_std E -> forall n off st,
  is_i128 n -> room (smem st) off 4 160 ->
  roundtrips E "stdlib.int-to-utf8" "stdlib.utf8-to-int" i128 n off st.
Proof.
  intros HS E HE n off st Hn Hr. destruct (C13_int_to_utf8 E HE n off st Hn Hr) as (s & m' & HC & HB & HO & HK).
  exists off, (4 * Z.of_nat (length s)), (with_mem st m'). split; [exact HK|].
  destruct (canonical_int n s Hn HC) as (H1 & H2). rewrite <- H1. apply C12_utf8_to_int_partial; auto.
  - destruct HC as [[_ HC]|[_ (r & -> & HC)]]; [apply digits_scalars; apply HC|].
    constructor; [change (2 ^ 32) with m32; lia|]. apply digits_scalars; apply HC.
  - cbn [smem with_mem]. destruct Hr as (? & ? & ?), HO as [-> _]. lia.
Qed.
Print Assumptions C14_int_utf8.
