(** * Correctness of [utf8-to-string-utf8] (proof support). *)
From Coq Require Import ZArith String List Bool Lia.
Import ListNotations.
From Verif Require Import Wasm Std StdEnv WasmLogic WasmTac Spec SpecBytes SpecUtf8 ZBits Mem MemFacts ArithProofs NameProofs Utf8Proofs.
Open Scope string_scope.
Open Scope list_scope.
Open Scope Z_scope.

Lemma nth_firstn_lt_ j k (l : list Z) : (j < k)%nat -> nth j l 0 = nth j (firstn k l) 0.
Proof. revert j k. induction l as [|x l IH]; intros [|j] [|k] H; try lia; cbn [firstn nth]; auto. apply IH. lia. Qed.
Lemma cons_inj {A} (x y : A) l l' : x :: l = y :: l' -> x = y /\ l = l'.
Proof. intros H. inversion H. auto. Qed.

(** the decoding step as the code computes it *)
Definition dec (b0 b1 b2 b3 : Z) : option (Z * Z) :=
  if b0 <? 128 then Some (b0, 1)
  else if Z.land b0 224 =? 192 then
    if Z.land b1 192 =? 128 then
      let c := Z.lor ((Z.land b0 31 * 64) mod m32) (Z.land b1 63) in
      if c <? 128 then None else Some (c, 2)
    else None
  else if Z.land b0 240 =? 224 then
    if Z.land b1 192 =? 128 then
      if Z.land b2 192 =? 128 then
        let c := Z.lor (Z.lor ((Z.land b0 15 * 4096) mod m32) ((Z.land b1 63 * 64) mod m32)) (Z.land b2 63) in
        if (Z.land c 4294965248 =? 55296) || (c <? 2048) then None else Some (c, 3)
      else None
    else None
  else if Z.land b0 248 =? 240 then
    if Z.land b1 192 =? 128 then
      if Z.land b2 192 =? 128 then
        if Z.land b3 192 =? 128 then
          let c := Z.lor (Z.lor (Z.lor ((Z.land b0 7 * 262144) mod m32) ((Z.land b1 63 * 4096) mod m32)) ((Z.land b2 63 * 64) mod m32)) (Z.land b3 63) in
          if (c - 1114112) mod m32 <? 4293918720 then None else Some (c, 4)
        else None
      else None
    else None
  else None.

Definition byte (b : Z) : Prop := 0 <= b < 256.
Lemma cont_byte b : byte b -> (Z.land b 192 =? 128) = ((128 <=? b) && (b <? 192)).
Proof. intros H. apply eqb_prop. revert b H. apply (byte_cases (fun b => eqb (Z.land b 192 =? 128) ((128 <=? b) && (b <? 192)))). vm_compute. reflexivity. Qed.
Lemma lead2_byte b : byte b -> (Z.land b 224 =? 192) = ((192 <=? b) && (b <? 224)).
Proof. intros H. apply eqb_prop. revert b H. apply (byte_cases (fun b => eqb (Z.land b 224 =? 192) ((192 <=? b) && (b <? 224)))). vm_compute. reflexivity. Qed.
Lemma lead3_byte b : byte b -> (Z.land b 240 =? 224) = ((224 <=? b) && (b <? 240)).
Proof. intros H. apply eqb_prop. revert b H. apply (byte_cases (fun b => eqb (Z.land b 240 =? 224) ((224 <=? b) && (b <? 240)))). vm_compute. reflexivity. Qed.
Lemma lead4_byte b : byte b -> (Z.land b 248 =? 240) = ((240 <=? b) && (b <? 248)).
Proof. intros H. apply eqb_prop. revert b H. apply (byte_cases (fun b => eqb (Z.land b 248 =? 240) ((240 <=? b) && (b <? 248)))). vm_compute. reflexivity. Qed.

Definition val2 b0 b1 := (b0 mod 32) * 64 + b1 mod 64.
Definition val3 b0 b1 b2 := (b0 mod 16) * 4096 + (b1 mod 64) * 64 + b2 mod 64.
Definition val4 b0 b1 b2 b3 := (b0 mod 8) * 262144 + (b1 mod 64) * 4096 + (b2 mod 64) * 64 + b3 mod 64.

Lemma dval2 b0 b1 : Z.lor ((Z.land b0 31 * 64) mod m32) (Z.land b1 63) = val2 b0 b1.
Proof.
  change 31 with (2 ^ 5 - 1). change 63 with (2 ^ 6 - 1). rewrite !land_mask by lia.
  change (2 ^ 5) with 32. rewrite (Z.mod_small (_ * _)) by zlia. change 64 with (2 ^ 6). rewrite lor_add by zlia. reflexivity.
Qed.
Lemma dval3 b0 b1 b2 : Z.lor (Z.lor ((Z.land b0 15 * 4096) mod m32) ((Z.land b1 63 * 64) mod m32)) (Z.land b2 63) = val3 b0 b1 b2.
Proof.
  change 15 with (2 ^ 4 - 1). change 63 with (2 ^ 6 - 1). rewrite !land_mask by lia.
  change (2 ^ 4) with 16. change (2 ^ 6) with 64. rewrite !(Z.mod_small (_ * _)) by zlia.
  change 4096 with (2 ^ 12). rewrite lor_add by zlia. change (2 ^ 12) with (64 * 64). rewrite Z.mul_assoc, <- Z.mul_add_distr_r.
  change 64 with (2 ^ 6). rewrite lor_add by zlia. unfold val3. change (2 ^ 6) with 64. lia.
Qed.
Lemma dval4 b0 b1 b2 b3 : Z.lor (Z.lor (Z.lor ((Z.land b0 7 * 262144) mod m32) ((Z.land b1 63 * 4096) mod m32)) ((Z.land b2 63 * 64) mod m32)) (Z.land b3 63) = val4 b0 b1 b2 b3.
Proof.
  change 7 with (2 ^ 3 - 1). change 63 with (2 ^ 6 - 1). rewrite !land_mask by lia.
  change (2 ^ 3) with 8. change (2 ^ 6) with 64. rewrite !(Z.mod_small (_ * _)) by zlia.
  change 262144 with (2 ^ 18). rewrite lor_add by zlia. change (2 ^ 18) with (64 * 4096). rewrite Z.mul_assoc, <- Z.mul_add_distr_r.
  change 4096 with (2 ^ 12). rewrite lor_add by zlia. change (2 ^ 12) with (64 * 64). rewrite Z.mul_assoc, <- Z.mul_add_distr_r.
  change 64 with (2 ^ 6). rewrite lor_add by zlia. unfold val4. change (2 ^ 6) with 64. lia.
Qed.
Lemma surr c : 0 <= c < 65536 -> (Z.land c 4294965248 =? 55296) = ((55296 <=? c) && (c <? 57344)).
Proof.
  intros H. assert (E : Z.land c 4294965248 = c / 2048 * 2048).
  { replace 4294965248 with (Z.shiftl (Z.ones 21) 11) by reflexivity.
    change 2048 with (2 ^ 11). rewrite <- (Z.shiftr_div_pow2 c 11), <- (Z.shiftl_mul_pow2 _ 11) by lia.
    apply Z.bits_inj'. intros n Hn. rewrite Z.land_spec. destruct (Z.ltb_spec n 11).
    - rewrite !Z.shiftl_spec_low by lia. apply andb_false_r.
    - rewrite !Z.shiftl_spec by lia. rewrite Z.shiftr_spec by lia. replace (n - 11 + 11) with n by lia.
      destruct (Z.ltb_spec (n - 11) 21).
      + rewrite Z.ones_spec_low by lia. apply andb_true_r.
      + rewrite Z.ones_spec_high by lia. rewrite andb_false_r. symmetry.
        destruct (Z.eq_dec c 0) as [->|]; [apply Z.bits_0|].
        apply Z.bits_above_log2; [lia|]. assert (Z.log2 c < 16) by (apply Z.log2_lt_pow2; lia). lia. }
  rewrite E. destruct (Z.eqb_spec (c / 2048 * 2048) 55296), (Z.leb_spec 55296 c), (Z.ltb_spec c 57344); cbn [andb]; try reflexivity; exfalso; zlia.
Qed.

(** the same in arithmetic *)
Definition isc b := (128 <=? b) && (b <? 192).
Definition dec' (b0 b1 b2 b3 : Z) : option (Z * Z) :=
  if b0 <? 128 then Some (b0, 1)
  else if (192 <=? b0) && (b0 <? 224) then
    if isc b1 then if val2 b0 b1 <? 128 then None else Some (val2 b0 b1, 2) else None
  else if (224 <=? b0) && (b0 <? 240) then
    if isc b1 then if isc b2 then
        if ((55296 <=? val3 b0 b1 b2) && (val3 b0 b1 b2 <? 57344)) || (val3 b0 b1 b2 <? 2048) then None else Some (val3 b0 b1 b2, 3)
      else None else None
  else if (240 <=? b0) && (b0 <? 248) then
    if isc b1 then if isc b2 then if isc b3 then
          if (val4 b0 b1 b2 b3 - 1114112) mod m32 <? 4293918720 then None else Some (val4 b0 b1 b2 b3, 4)
        else None else None else None
  else None.
Lemma dec_dec' b0 b1 b2 b3 : byte b0 -> byte b1 -> byte b2 -> byte b3 -> dec b0 b1 b2 b3 = dec' b0 b1 b2 b3.
Proof.
  intros H0 H1 H2 H3. unfold dec, dec'. rewrite !cont_byte, lead2_byte, lead3_byte, lead4_byte by auto.
  cbv zeta. rewrite dval2, dval3, dval4. rewrite surr; [reflexivity|]. unfold val3. zlia.
Qed.

Lemma dec_some b0 b1 b2 b3 c n : byte b0 -> byte b1 -> byte b2 -> byte b3 -> dec b0 b1 b2 b3 = Some (c, n) ->
  scalar c /\ n = Z.of_nat (length (utf8_char c)) /\ firstn (Z.to_nat n) [b0; b1; b2; b3] = utf8_char c.
Proof.
  intros H0 H1 H2 H3. rewrite dec_dec' by auto. unfold dec', isc, byte in *.
  destruct (Z.ltb_spec b0 128).
  { intros [= <- <-]. unfold scalar, utf8_char. destruct (Z.ltb_spec b0 128); [|lia]. repeat split; lia. }
  destruct (Z.leb_spec 192 b0), (Z.ltb_spec b0 224); cbn [andb]; try lia.
  { destruct (Z.leb_spec 128 b1), (Z.ltb_spec b1 192); cbn [andb]; try discriminate.
    unfold val2. destruct (Z.ltb_spec (b0 mod 32 * 64 + b1 mod 64) 128) as [|Hv]; [discriminate|]. intros [= <- <-].
    assert (E0 : b0 mod 32 = b0 - 192) by zlia. assert (E1 : b1 mod 64 = b1 - 128) by zlia. rewrite E0, E1 in *.
    unfold utf8_char, scalar. destruct (Z.ltb_spec ((b0 - 192) * 64 + (b1 - 128)) 128); [lia|].
    destruct (Z.ltb_spec ((b0 - 192) * 64 + (b1 - 128)) 2048); [|lia]. split; [lia|]. split; [reflexivity|].
    change (Z.to_nat 2) with 2%nat. cbn [firstn]. repeat f_equal; zlia. }
  { destruct (Z.leb_spec 224 b0), (Z.ltb_spec b0 240); cbn [andb]; try lia.
    - destruct (Z.leb_spec 128 b1), (Z.ltb_spec b1 192); cbn [andb]; try discriminate.
      destruct (Z.leb_spec 128 b2), (Z.ltb_spec b2 192); cbn [andb]; try discriminate.
      unfold val3. assert (E0 : b0 mod 16 = b0 - 224) by zlia. assert (E1 : b1 mod 64 = b1 - 128) by zlia. assert (E2 : b2 mod 64 = b2 - 128) by zlia.
      rewrite E0, E1, E2. set (v := (b0 - 224) * 4096 + (b1 - 128) * 64 + (b2 - 128)) in *.
      destruct (Z.ltb_spec v 2048); rewrite ?orb_true_r, ?orb_false_r; [discriminate|].
      destruct (Z.leb_spec 55296 v), (Z.ltb_spec v 57344); cbn [andb]; try discriminate; intros [= <- <-].
      all: unfold utf8_char, scalar; assert (Hv : v < 65536) by (subst v; lia);
        destruct (Z.ltb_spec v 128); [lia|]; destruct (Z.ltb_spec v 2048); [lia|]; destruct (Z.ltb_spec v 65536); [|lia];
        split; [lia|]; split; [reflexivity|]; change (Z.to_nat 3) with 3%nat; cbn [firstn]; subst v; repeat f_equal; zlia.
    - destruct (Z.leb_spec 240 b0), (Z.ltb_spec b0 248); cbn [andb]; try lia; try discriminate.
      destruct (Z.leb_spec 128 b1), (Z.ltb_spec b1 192); cbn [andb]; try discriminate.
      destruct (Z.leb_spec 128 b2), (Z.ltb_spec b2 192); cbn [andb]; try discriminate.
      destruct (Z.leb_spec 128 b3), (Z.ltb_spec b3 192); cbn [andb]; try discriminate.
      unfold val4. assert (E0 : b0 mod 8 = b0 - 240) by zlia. assert (E1 : b1 mod 64 = b1 - 128) by zlia. assert (E2 : b2 mod 64 = b2 - 128) by zlia. assert (E3 : b3 mod 64 = b3 - 128) by zlia.
      rewrite E0, E1, E2, E3. set (v := (b0 - 240) * 262144 + (b1 - 128) * 4096 + (b2 - 128) * 64 + (b3 - 128)) in *.
      destruct (Z.ltb_spec ((v - 1114112) mod m32) 4293918720) as [|Hm]; [discriminate|]. intros [= <- <-].
      assert (Hv0 : 0 <= v < 2097152) by (subst v; lia).
      assert (Hv : 65536 <= v < 1114112) by (clear - Hm Hv0; clearbody v; zlia).
      unfold utf8_char, scalar. destruct (Z.ltb_spec v 128); [lia|]; destruct (Z.ltb_spec v 2048); [lia|]; destruct (Z.ltb_spec v 65536); [lia|].
      split; [lia|]; split; [reflexivity|]. change (Z.to_nat 4) with 4%nat; cbn [firstn]; subst v.
      
      assert (B0 : 240 <= b0 < 248) by lia. assert (B1 : 128 <= b1 < 192) by lia. assert (B2 : 128 <= b2 < 192) by lia. assert (B3 : 128 <= b3 < 192) by lia.
      clear - B0 B1 B2 B3. apply f_equal2; [|apply f_equal2; [|apply f_equal2; [|apply f_equal2; [|reflexivity]]]]; zlia. }
  { destruct (Z.leb_spec 224 b0), (Z.ltb_spec b0 240), (Z.leb_spec 240 b0), (Z.ltb_spec b0 248); cbn [andb]; try lia; try discriminate. }
Qed.

Lemma dec_char b0 b1 b2 b3 c : byte b0 -> byte b1 -> byte b2 -> byte b3 -> scalar c ->
  firstn (length (utf8_char c)) [b0; b1; b2; b3] = utf8_char c ->
  dec b0 b1 b2 b3 = Some (c, Z.of_nat (length (utf8_char c))).
Proof.
  intros H0 H1 H2 H3 Hc. rewrite dec_dec' by auto. unfold utf8_char, scalar, dec', isc, byte in *.
  destruct (Z.ltb_spec c 128).
  { cbn [length firstn]. intros K. apply cons_inj in K as [-> _]. destruct (Z.ltb_spec c 128); [reflexivity|lia]. }
  destruct (Z.ltb_spec c 2048).
  { cbn [length firstn]. intros K. apply cons_inj in K as [K0 K]. apply cons_inj in K as [K1 _].
    assert (B0 : 194 <= b0 < 224) by zlia. assert (B1 : 128 <= b1 < 192) by zlia.
    assert (V : val2 b0 b1 = c) by (unfold val2; clear - K0 K1 H H4 Hc B0 B1; zlia). rewrite V.
    destruct (Z.ltb_spec b0 128); [lia|]. destruct (Z.leb_spec 192 b0); [|lia]. destruct (Z.ltb_spec b0 224); [|lia]. cbn [andb].
    destruct (Z.leb_spec 128 b1); [|lia]. destruct (Z.ltb_spec b1 192); [|lia]. cbn [andb].
    destruct (Z.ltb_spec c 128); [lia|]. reflexivity. }
  destruct (Z.ltb_spec c 65536).
  { cbn [length firstn]. intros K. apply cons_inj in K as [K0 K]. apply cons_inj in K as [K1 K]. apply cons_inj in K as [K2 _].
    assert (B0 : 224 <= b0 < 240) by zlia. assert (B1 : 128 <= b1 < 192) by zlia. assert (B2 : 128 <= b2 < 192) by zlia.
    assert (V : val3 b0 b1 b2 = c) by (unfold val3; clear - K0 K1 K2 H H4 H5 Hc B0 B1 B2; zlia). rewrite V.
    destruct (Z.ltb_spec b0 128); [lia|]. destruct (Z.ltb_spec b0 224); [lia|]. rewrite andb_false_r.
    destruct (Z.leb_spec 224 b0); [|lia]. destruct (Z.ltb_spec b0 240); [|lia]. cbn [andb].
    destruct (Z.leb_spec 128 b1); [|lia]. destruct (Z.ltb_spec b1 192); [|lia]. cbn [andb].
    destruct (Z.leb_spec 128 b2); [|lia]. destruct (Z.ltb_spec b2 192); [|lia]. cbn [andb].
    destruct (Z.ltb_spec c 2048); [lia|]. destruct (Z.leb_spec 55296 c), (Z.ltb_spec c 57344); cbn [andb orb]; try reflexivity. lia. }
  { cbn [length firstn]. intros K. apply cons_inj in K as [K0 K]. apply cons_inj in K as [K1 K]. apply cons_inj in K as [K2 K]. apply cons_inj in K as [K3 _].
    assert (Hc' : 65536 <= c < 1114112) by lia.
    assert (B0 : 240 <= b0 < 245) by zlia. assert (B1 : 128 <= b1 < 192) by zlia. assert (B2 : 128 <= b2 < 192) by zlia. assert (B3 : 128 <= b3 < 192) by zlia.
    assert (V : val4 b0 b1 b2 b3 = c).
    { unfold val4. clear - K0 K1 K2 K3 Hc' B0 B1 B2 B3. assert (b0 mod 8 = b0 - 240) by zlia. assert (b1 mod 64 = b1 - 128) by zlia.
      assert (b2 mod 64 = b2 - 128) by zlia. assert (b3 mod 64 = b3 - 128) by zlia.
      assert (c / 262144 = c / 64 / 64 / 64) by (rewrite !Z.div_div by lia; reflexivity).
      assert (c / 4096 = c / 64 / 64) by (rewrite !Z.div_div by lia; reflexivity). zlia. } rewrite V.
    destruct (Z.ltb_spec b0 128); [lia|]. destruct (Z.ltb_spec b0 224); [lia|]. rewrite andb_false_r.
    destruct (Z.ltb_spec b0 240); [lia|]. rewrite andb_false_r. destruct (Z.leb_spec 240 b0); [|lia]. destruct (Z.ltb_spec b0 248); [|lia]. cbn [andb].
    destruct (Z.leb_spec 128 b1); [|lia]. destruct (Z.ltb_spec b1 192); [|lia]. cbn [andb].
    destruct (Z.leb_spec 128 b2); [|lia]. destruct (Z.ltb_spec b2 192); [|lia]. cbn [andb].
    destruct (Z.leb_spec 128 b3); [|lia]. destruct (Z.ltb_spec b3 192); [|lia]. cbn [andb].
    destruct (Z.ltb_spec ((c - 1114112) mod m32) 4293918720) as [X|X]; [exfalso|reflexivity]. clear - Hc' X. zlia. }
Qed.

(** UTF-8 is a prefix code *)
Lemma scalar_in c : scalar c -> in_utf8 c.
Proof. unfold scalar, in_utf8. lia. Qed.
Lemma four_bytes l : Forall byte l -> exists b0 b1 b2 b3, byte b0 /\ byte b1 /\ byte b2 /\ byte b3 /\ firstn 4 l = firstn (length (firstn 4 l)) [b0; b1; b2; b3].
Proof.
  intros H. assert (byte 0) by (unfold byte; lia).
  destruct l as [|x0 l]; [exists 0, 0, 0, 0; auto|]. inversion_clear H.
  destruct l as [|x1 l]; [exists x0, 0, 0, 0; repeat split; auto; unfold byte in *; lia|]. inversion_clear H2.
  destruct l as [|x2 l]; [exists x0, x1, 0, 0; repeat split; auto; unfold byte in *; lia|]. inversion_clear H3.
  destruct l as [|x3 l]; [exists x0, x1, x2, 0; repeat split; auto; unfold byte in *; lia|]. inversion_clear H4.
  exists x0, x1, x2, x3. repeat split; auto; unfold byte in *; lia.
Qed.
Lemma utf8_char_nat c : (1 <= length (utf8_char c) <= 4)%nat.
Proof. pose proof (utf8_char_len c). lia. Qed.
Lemma firstn_prefix {A} (u r l : list A) n : u ++ r = l -> (length u <= n)%nat -> firstn (length u) (firstn n l) = u.
Proof.
  intros <- Hn. rewrite firstn_firstn, Nat.min_l by auto. rewrite firstn_app, Nat.sub_diag, firstn_all, firstn_O, app_nil_r. reflexivity.
Qed.
(** the character at the front of four bytes is unique *)
Lemma char_unique c c' b0 b1 b2 b3 : byte b0 -> byte b1 -> byte b2 -> byte b3 -> scalar c -> scalar c' ->
  firstn (length (utf8_char c)) [b0; b1; b2; b3] = utf8_char c -> firstn (length (utf8_char c')) [b0; b1; b2; b3] = utf8_char c' -> c = c'.
Proof.
  intros H0 H1 H2 H3 Hc Hc' K K'.
  pose proof (dec_char b0 b1 b2 b3 c H0 H1 H2 H3 Hc K) as D. rewrite (dec_char b0 b1 b2 b3 c' H0 H1 H2 H3 Hc' K') in D.
  congruence.
Qed.
Lemma prefix_code c c' r r' : scalar c -> scalar c' -> Forall byte r -> utf8_char c ++ r = utf8_char c' ++ r' -> c = c' /\ r = r'.
Proof.
  intros Hc Hc' Hr H.
  assert (HB : Forall byte (utf8_char c ++ r)) by (apply Forall_app; split; [apply utf8_char_bytes, scalar_in; auto|auto]).
  destruct (four_bytes _ HB) as (b0 & b1 & b2 & b3 & H0 & H1 & H2 & H3 & H4).
  assert (c = c').
  { apply (char_unique c c' b0 b1 b2 b3); auto.
    - rewrite <- (firstn_prefix (utf8_char c) r _ 4 eq_refl) at 2 by apply utf8_char_nat. rewrite H4.
      rewrite firstn_firstn. f_equal. symmetry. apply Nat.min_l. rewrite firstn_length, app_length. pose proof (utf8_char_nat c). lia.
    - rewrite <- (firstn_prefix (utf8_char c') r' _ 4 (eq_sym H)) at 2 by apply utf8_char_nat. rewrite H4.
      rewrite firstn_firstn. f_equal. symmetry. apply Nat.min_l. rewrite firstn_length, H, app_length. pose proof (utf8_char_nat c'). lia. }
  subst c'. apply app_inv_head in H. auto.
Qed.
Lemma utf8_cancel cs : forall r cs0, Forall scalar cs -> Forall scalar cs0 -> Forall byte r -> utf8 cs ++ r = utf8 cs0 -> exists cs1, cs0 = cs ++ cs1 /\ r = utf8 cs1 /\ Forall scalar cs1.
Proof.
  induction cs as [|c cs IH]; intros r cs0 H H0 Hr K.
  - exists cs0. auto.
  - inversion_clear H. destruct cs0 as [|c0 cs0].
    + rewrite utf8_cons in K. pose proof (utf8_char_nat c). destruct (utf8_char c); [cbn in *; lia|discriminate K].
    + inversion_clear H0. rewrite !utf8_cons, <- app_assoc in K. apply prefix_code in K as [-> K]; auto.
      2:{ apply Forall_app. split; [|auto]. apply utf8_bytes. eapply Forall_impl; [|exact H2]. apply scalar_in. }
      destruct (IH _ _ H2 H3 Hr K) as (cs1 & -> & -> & ?). exists cs1. auto.
Qed.

Section Dec.
Context {HS : Type} (E : env HS) (HE : has_std E).
Implicit Types (st : store HS) (R : result HS -> Prop).
Ltac wfin := unfold qcall, qblock, qfunc; wcbn.

Definition need (b0 : Z) : Z := if b0 <? 128 then 1 else if b0 <? 224 then 2 else if b0 <? 240 then 3 else 4.
(** the decoding of one character *)
Lemma dec_step p D o k w5 w6 wp_ st REST Q :
  0 <= p -> p + need (rd (smem st) p) <= msize (smem st) -> msize (smem st) < m32 ->
  (forall c n b, dec (rd (smem st) p) (rd (smem st) (p+1)) (rd (smem st) (p+2)) (rd (smem st) (p+3)) = Some (c, n) ->
     wp E REST (mkcfg [VI32 (p + n); VI32 ((D - n) mod m32); o; k; VI32 c; b; wp_] [] st) Q) ->
  (dec (rd (smem st) p) (rd (smem st) (p+1)) (rd (smem st) (p+2)) (rd (smem st) (p+3)) = None ->
     forall ls, Q (ORet (mkcfg ls [VI32 0; VI32 0; VI32 0] st))) ->
  wp E (firstn 7 (skipn 7 (match nth 5 (fbody f_utf8_to_string_utf8) Nop with Loop _ _ b => b | _ => [] end)) ++ REST) 
    (mkcfg [VI32 p; VI32 (D mod m32); o; k; w5; w6; wp_] [] st) Q.
Proof.
  intros Hp Hneed Hms OK BAD. pose proof (rd_range (smem st) p) as Hb0.
  unfold need in Hneed. cbn [firstn skipn f_utf8_to_string_utf8 fbody nth app].
  set (m := smem st) in *. set (b0 := rd m p) in *. set (b1 := rd m (p + 1)) in *. set (b2 := rd m (p + 2)) in *. set (b3 := rd m (p + 3)) in *.
  assert (HM : forall n, (D mod m32 - n) mod m32 = (D - n) mod m32) by (intros n; rewrite Zminus_mod_idemp_l; reflexivity).
  wpure. apply wp_load; [cbn [ldbytes Z.of_nat Pos.of_succ_nat]; fold m; destruct (b0 <? 128), (b0 <? 224), (b0 <? 240); lia|].
  cbn [ldbytes ldval]. fold m. rewrite ldn1, Z.add_0_r. fold b0. wpure.
  unfold dec in OK, BAD. wif H0; rewrite H0 in *.
  { wpure. wnil. rewrite HM, (Z.mod_small (p + 1)) by lia. apply (OK b0 1 w6). reflexivity. }
  wpure. wif H2; rewrite H2 in *.
  { rewrite (lead2_byte b0 Hb0) in H2. assert (Hr : 192 <= b0 < 224) by lia. destruct (Z.ltb_spec b0 224) as [_|]; [|lia].
    wpure. apply wp_load; [cbn [ldbytes Z.of_nat Pos.of_succ_nat]; fold m; lia|]. cbn [ldbytes ldval]. fold m. rewrite ldn1. fold b1. wpure.
    wif C1; rewrite C1 in *.
    2:{ wpure. wret. apply BAD. reflexivity. }
    wpure. wnil. wpure. cbv zeta in OK, BAD. wif CV; rewrite CV in *.
    { wpure. wret. apply BAD. reflexivity. }
    wnil. wpure. wnil. wnil. rewrite HM, (Z.mod_small (p + 2)) by lia. apply OK. reflexivity. }
  wpure. wif H3; rewrite H3 in *.
  { rewrite (lead3_byte b0 Hb0) in H3. assert (Hr : 224 <= b0 < 240) by lia.
    destruct (Z.ltb_spec b0 224) as [|_]; [lia|]. destruct (Z.ltb_spec b0 240) as [_|]; [|lia].
    wpure. apply wp_load; [cbn [ldbytes Z.of_nat Pos.of_succ_nat]; fold m; lia|]. cbn [ldbytes ldval]. fold m. rewrite ldn1. fold b1. wpure.
    wif C1; rewrite C1 in *.
    2:{ wpure. wret. apply BAD. reflexivity. }
    wpure. wnil. wpure. apply wp_load; [cbn [ldbytes Z.of_nat Pos.of_succ_nat]; fold m; lia|]. cbn [ldbytes ldval]. fold m. rewrite ldn1. fold b2. wpure.
    wif C2; rewrite C2 in *.
    2:{ wpure. wret. apply BAD. reflexivity. }
    wpure. wnil. wpure. cbv zeta in OK, BAD. rewrite b2z_or. wif CV; rewrite CV in *.
    { wpure. wret. apply BAD. reflexivity. }
    wnil. wpure. wnil. wnil. wnil. rewrite HM, (Z.mod_small (p + 3)) by lia. apply OK. reflexivity. }
  wpure. wif H4; rewrite H4 in *.
  { rewrite (lead4_byte b0 Hb0) in H4. assert (Hr : 240 <= b0 < 248) by lia.
    destruct (Z.ltb_spec b0 224) as [|_]; [lia|]. destruct (Z.ltb_spec b0 240) as [|_]; [lia|].
    wpure. apply wp_load; [cbn [ldbytes Z.of_nat Pos.of_succ_nat]; fold m; lia|]. cbn [ldbytes ldval]. fold m. rewrite ldn1. fold b1. wpure.
    wif C1; rewrite C1 in *.
    2:{ wpure. wret. apply BAD. reflexivity. }
    wpure. wnil. wpure. apply wp_load; [cbn [ldbytes Z.of_nat Pos.of_succ_nat]; fold m; lia|]. cbn [ldbytes ldval]. fold m. rewrite ldn1. fold b2. wpure.
    wif C2; rewrite C2 in *.
    2:{ wpure. wret. apply BAD. reflexivity. }
    wpure. wnil. wpure. apply wp_load; [cbn [ldbytes Z.of_nat Pos.of_succ_nat]; fold m; lia|]. cbn [ldbytes ldval]. fold m. rewrite ldn1. fold b3. wpure.
    wif C3; rewrite C3 in *.
    2:{ wpure. wret. apply BAD. reflexivity. }
    wpure. wnil. wpure. cbv zeta in OK, BAD. wif CV; rewrite CV in *.
    { wpure. wret. apply BAD. reflexivity. }
    wnil. wpure. wnil. wnil. wnil. wnil. rewrite HM, (Z.mod_small (p + 4)) by lia. apply OK. reflexivity. }
  wpure. wret. apply BAD. reflexivity.
Qed.

(** the byte-swapped scalar that is stored *)
Lemma be4_word c : 0 <= c < 2097152 ->
  Z.lor (Z.lor ((c * 16777216) mod m32) ((Z.land c 65280 * 256) mod m32)) (Z.lor (Z.land (c / 256) 65280) (c / 16777216)) = le_val (be4 c).
Proof.
  intros Hc. assert (F : forall x, 0 <= x < 2097152 -> Z.land x 65280 = x / 256 mod 256 * 256).
  { intros x Hx. set (b0 := x mod 256). set (b1 := x / 256 mod 256). set (b2 := x / 65536).
    assert (Ex : x = b0 + 2 ^ 8 * (b1 + 2 ^ 8 * b2)) by (subst b0 b1 b2; change (2 ^ 8) with 256; zlia).
    assert (B0 : 0 <= b0 < 256) by (apply Z.mod_pos_bound; lia). assert (B1 : 0 <= b1 < 256) by (apply Z.mod_pos_bound; lia).
    rewrite Ex. change 65280 with (0 + 2 ^ 8 * (255 + 2 ^ 8 * 0)). rewrite !land_split by lia.
    rewrite !Z.land_0_r. replace (Z.land b1 255) with b1; [change (2 ^ 8) with 256; lia|].
    change 255 with (2 ^ 8 - 1). rewrite land_mask by lia. symmetry. apply Z.mod_small. exact B1. }
  rewrite !F by zlia. cbn [be4 le_val]. change (2 ^ 24) with 16777216. change (2 ^ 16) with 65536. change (2 ^ 8) with 256.
  rewrite (Z.div_small c 16777216) by lia. rewrite Z.mod_0_l by lia.
  replace ((c * 16777216) mod m32) with (c mod 256 * 2 ^ 24) by (change (2 ^ 24) with 16777216; zlia).
  replace ((c / 256 mod 256 * 256 * 256) mod m32) with (c / 256 mod 256 * 2 ^ 16) by (change (2 ^ 16) with 65536; zlia).
  rewrite lor_add by (try lia; change (2 ^ 16) with 65536; change (2 ^ 24) with 16777216; zlia).
  rewrite Z.lor_0_r. replace (c / 256 / 256) with (c / 65536) by (rewrite Z.div_div by lia; reflexivity).
  replace (c mod 256 * 2 ^ 24 + c / 256 mod 256 * 2 ^ 16) with ((c mod 256 * 256 + c / 256 mod 256) * 2 ^ 16) by (change (2 ^ 24) with (256 * 2 ^ 16); lia).
  rewrite lor_add by (try lia; change (2 ^ 16) with 65536; zlia). change (2 ^ 16) with 65536. lia.
Qed.
Lemma stn4_be4 m a c : bytes_at (stn m a 4 (le_val (be4 c))) a 4 = be4 c.
Proof.
  rewrite bytes_at_stn. unfold be4. cbn [seq map le_val]. change (256 ^ Z.of_nat 0) with 1. change (256 ^ Z.of_nat 1) with 256. change (256 ^ Z.of_nat 2) with 65536. change (256 ^ Z.of_nat 3) with 16777216.
  pose proof (Z.mod_pos_bound (c / 2 ^ 24) 256 ltac:(lia)) as B0. pose proof (Z.mod_pos_bound (c / 2 ^ 16) 256 ltac:(lia)) as B1.
  pose proof (Z.mod_pos_bound (c / 2 ^ 8) 256 ltac:(lia)) as B2. pose proof (Z.mod_pos_bound c 256 ltac:(lia)) as B3.
  set (x0 := c / 2 ^ 24 mod 256) in *. set (x1 := c / 2 ^ 16 mod 256) in *. set (x2 := c / 2 ^ 8 mod 256) in *. set (x3 := c mod 256) in *.
  clearbody x0 x1 x2 x3. clear c m a.
  assert (F : forall x q, 0 <= x < 256 -> (x + 256 * q) / 256 = q /\ (x + 256 * q) mod 256 = x) by (intros; zlia).
  rewrite Z.div_1_r. change 16777216 with (256 * 256 * 256). change 65536 with (256 * 256). rewrite <- !Z.div_div by lia.
  rewrite (proj2 (F x0 _ B0)), (proj1 (F x0 _ B0)), (proj2 (F x1 _ B1)), (proj1 (F x1 _ B1)), (proj2 (F x2 _ B2)), (proj1 (F x2 _ B2)), (proj2 (F x3 _ B3)).
  reflexivity.
Qed.

Definition utf8_ok (bs : list Z) (cs : list Z) (maxlen : Z) : Prop := utf8_of bs cs /\ Z.of_nat (length cs) <= maxlen.

Lemma need_len c r b0 : scalar c -> utf8_char c = b0 :: r -> need b0 = Z.of_nat (length (utf8_char c)).
Proof.
  unfold scalar, utf8_char, need. intros Hc.
  destruct (Z.ltb_spec c 128); [intros K; apply cons_inj in K as [<- _]; destruct (Z.ltb_spec c 128); [reflexivity|lia]|].
  destruct (Z.ltb_spec c 2048); [|destruct (Z.ltb_spec c 65536)]; intros K; apply cons_inj in K as [<- _]; cbn [length].
  - destruct (Z.ltb_spec (192 + c / 64) 128), (Z.ltb_spec (192 + c / 64) 224); try reflexivity; zlia.
  - destruct (Z.ltb_spec (224 + c / 4096) 128), (Z.ltb_spec (224 + c / 4096) 224), (Z.ltb_spec (224 + c / 4096) 240); try reflexivity; zlia.
  - destruct (Z.ltb_spec (240 + c / 262144) 128), (Z.ltb_spec (240 + c / 262144) 224), (Z.ltb_spec (240 + c / 262144) 240); try reflexivity; zlia.
Qed.
Lemma need_range b : 1 <= need b <= 4.
Proof. unfold need. destruct (b <? 128), (b <? 224), (b <? 240); lia. Qed.

Lemma utf8_to_string_utf8_wp a bs o maxlen st R :
  holds (smem st) a bs -> 0 <= o -> 0 <= maxlen -> o + 4 * maxlen <= msize (smem st) -> msize (smem st) < m32 ->
  a + Z.of_nat (length bs) <= o \/ o + 4 * maxlen <= a ->
  (exists cs, utf8_of bs cs) \/ a + 4 * maxlen <= msize (smem st) ->
  (forall cs m', (utf8_ok bs cs maxlen \/ bs = [] /\ cs = []) -> only_changes (smem st) m' o (4 * Z.of_nat (length cs)) ->
     bytes_at m' o (length (utf8_mem cs)) = utf8_mem cs -> R (RVals [VI32 1; VI32 o; VI32 (4 * Z.of_nat (length cs))] (with_mem st m'))) ->
  (forall m', bs <> [] -> (forall cs, ~ utf8_ok bs cs maxlen) -> only_changes (smem st) m' o (4 * maxlen) -> R (RVals [VI32 0; VI32 0; VI32 0] (with_mem st m'))) ->
  wpf E "stdlib.utf8-to-string-utf8" [VI32 a; vlen bs; VI32 o; VI32 maxlen] st R.
Proof.
  intros HB Ho Hmax Hroom Hms Hdis Hsafe ROK RBAD. unfold vlen. wenter HE. wpure. wif Hl.
  { destruct bs; [|cbn [length] in Hl; lia]. wpure. wret. specialize (ROK [] (smem st)). rewrite with_mem_same in ROK. apply ROK; [auto|apply only_refl|reflexivity]. }
  wnil. wpure. assert (Hne : bs <> []) by (intros ->; discriminate Hl). clear Hl.
  pose proof (holds_len _ _ _ HB) as (HB1 & HB2 & _). pose proof (holds_eq _ _ _ HB) as HB3.
  assert (Hbytes : Forall byte bs) by (eapply holds_byte; exact HB).
  assert (HLpos : 0 < Z.of_nat (length bs)) by (destruct bs; [contradiction|cbn [length]; lia]).
  set (L := Z.of_nat (length bs)) in *.
  eapply wp_loop0 with (z := maxlen)
    (I := fun k s => exists cs w5 w6 m', k = maxlen - Z.of_nat (length cs) /\ Forall scalar cs /\
       s = mkcfg [VI32 (a + Z.of_nat (length (utf8 cs))); VI32 ((L - Z.of_nat (length (utf8 cs))) mod m32); VI32 o; VI32 k; w5; w6; VI32 (o + 4 * Z.of_nat (length cs))] [] (with_mem st m') /\
       Z.of_nat (length (utf8 cs)) <> L /\ only_changes (smem st) m' o (4 * Z.of_nat (length cs)) /\
       bytes_at m' o (length (utf8_mem cs)) = utf8_mem cs /\
       (Z.of_nat (length (utf8 cs)) < L -> exists rest, bs = utf8 cs ++ rest) /\
       (L < Z.of_nat (length (utf8 cs)) -> forall cs0, ~ utf8_of bs cs0)).
  { lia. }
  { exists [], (VI32 0), (VI32 0), (smem st). cbn [utf8 utf8_mem flat_map length Z.of_nat]. change (4 * 0) with 0. rewrite !Z.add_0_r, !Z.sub_0_r, with_mem_same.
    split; [reflexivity|]. split; [constructor|]. split; [rewrite Z.mod_small by lia; reflexivity|]. split; [lia|]. split; [apply only_refl|]. split; [reflexivity|].
    split; [intros _; exists bs; reflexivity|lia]. }
  intros k ls st' Hk (cs & w5 & w6 & m' & Hk2 & Hsc & Hs & HD & HO & HM & Hpos & Hneg). apply cfg_inj in Hs as (-> & ->).
  set (W := Z.of_nat (length (utf8 cs))) in *. set (n := Z.of_nat (length cs)) in *.
  assert (HWn : W <= 4 * n).
  { clear. subst W n. induction cs as [|c cs IH]; [cbn; lia|]. rewrite utf8_cons, app_length. pose proof (utf8_char_nat c). cbn [length]. lia. }
  assert (HW0 : 0 <= W) by (subst W; lia).
  assert (Hmsz : msize m' = msize (smem st)) by apply HO.
  wpure.
  set (QL := qloop _ _ _ _ _ _ _).
  assert (FAIL : forall ls m2, (forall cs0, ~ utf8_ok bs cs0 maxlen) -> only_changes (smem st) m2 o (4 * maxlen) ->
     QL (ORet (mkcfg ls [VI32 0; VI32 0; VI32 0] (with_mem st m2)))).
  { intros ls m2 Hno HO2. unfold QL; wfin. apply RBAD; auto. }
  assert (HS0 : (sgn32 ((k - 1) mod m32) <? sgn32 0) = (k =? 0)).
  { change (sgn32 0) with 0. assert (Hk31 : k < h32) by lia. unfold sgn32. destruct (Z.eqb_spec k 0) as [->|Hk0].
    - reflexivity.
    - rewrite (Z.mod_small (k - 1)) by lia. destruct (Z.ltb_spec (k - 1) h32); [|lia]. apply Z.ltb_ge. lia. }
  rewrite HS0. wif Hk0.
  { apply Z.eqb_eq in Hk0. wpure. wret. apply FAIL; [|eapply only_weaken; [exact HO|lia|lia]].
    intros cs0 [Hu0 Hl0]. destruct (Z.lt_trichotomy W L) as [Hlt|[Heq|Hgt]]; [|contradiction|apply (Hneg Hgt cs0 Hu0)].
    destruct (Hpos Hlt) as (rest & Hr). destruct Hu0 as [Hs0 Hb0]. rewrite Hb0 in Hr. symmetry in Hr.
    destruct (utf8_cancel cs rest cs0 Hsc Hs0) as (cs1 & -> & -> & _); [rewrite Hb0, <- Hr in Hbytes; apply Forall_app in Hbytes; apply Hbytes|exact Hr|].
    rewrite app_length in Hl0. destruct cs1; [|cbn [length] in Hl0; lia].
    cbn [utf8 flat_map] in Hr. rewrite app_nil_r in Hr. rewrite app_nil_r in Hb0. subst L W. rewrite Hb0 in Hlt. lia. }
  apply Z.eqb_neq in Hk0. wnil. rewrite (Z.mod_small (k - 1)) by lia.
  set (p := a + W) in *.
  assert (HRD : forall rest j, bs = utf8 cs ++ rest -> (j < length rest)%nat -> rd m' (p + Z.of_nat j) = nth j rest 0).
  { intros rest j Hr Hj. assert (HB' : holds m' a bs) by (eapply only_holds; [exact HO|subst L; lia|exact HB]).
    rewrite Hr in HB'. apply holds_app in HB' as [_ HB']. apply holds_eq in HB'. rewrite <- HB'. fold W. fold p.
    rewrite nth_bytes_at by auto. reflexivity. }
  assert (HREST : forall rest cs0, bs = utf8 cs ++ rest -> utf8_of bs cs0 -> W < L -> exists c cs1, cs0 = cs ++ c :: cs1 /\ rest = utf8_char c ++ utf8 cs1 /\ scalar c /\ Forall scalar cs1).
  { intros rest cs0 Hr [Hs0 Hb0] Hlt. rewrite Hb0 in Hr. symmetry in Hr.
    destruct (utf8_cancel cs rest cs0 Hsc Hs0) as (cs1 & -> & -> & Hsc1); [rewrite Hb0, <- Hr in Hbytes; apply Forall_app in Hbytes; apply Hbytes|exact Hr|].
    destruct cs1 as [|c cs1].
    { cbn [utf8 flat_map] in Hr. rewrite app_nil_r in Hr. rewrite app_nil_r in Hb0. subst L W. rewrite Hb0 in Hlt. lia. }
    inversion Hsc1; subst. exists c, cs1. auto. }
  match goal with |- wp _ ?is _ _ =>
    change is with (firstn 7 (skipn 7 (match nth 5 (fbody f_utf8_to_string_utf8) Nop with Loop _ _ b => b | _ => [] end)) ++ skipn 7 is) end.
  set (REST := skipn 7 _).
  apply dec_step; cbn [cstore]; rewrite ?with_mem_mem.
  - lia.
  - rewrite Hmsz. pose proof (need_range (rd m' p)). destruct Hsafe as [(cs0 & Hu0)|Hsafe]; [|lia].
    destruct (Z.lt_trichotomy W L) as [Hlt|[Heq|Hgt]]; [|contradiction|destruct (Hneg Hgt cs0 Hu0)].
    destruct (Hpos Hlt) as (rest & Hr). destruct (HREST rest cs0 Hr Hu0 Hlt) as (c & cs1 & _ & Hrest & Hc & _).
    pose proof (utf8_char_nat c). destruct (utf8_char c) as [|x r] eqn:Ex; [cbn [length] in *; lia|].
    assert (Hx : rd m' p = x). { specialize (HRD rest O Hr). rewrite Hrest in HRD. cbn [app length nth Z.of_nat] in HRD. rewrite Z.add_0_r in HRD. apply HRD. lia. }
    rewrite Hx, (need_len c r x Hc Ex), Ex. assert (HL : L = W + Z.of_nat (length rest)) by (subst L W; rewrite Hr, app_length; lia).
    rewrite Hrest, app_length in HL. lia.
  - lia.
  - intros c nn b Hdec. pose proof (dec_some _ _ _ _ _ _ (rd_range m' p) (rd_range m' (p+1)) (rd_range m' (p+2)) (rd_range m' (p+3)) Hdec) as (Hc & Hnn & Hfst).
    subst REST. cbn [skipn]. pose proof (utf8_char_nat c) as Hcl.
    wpure. rewrite be4_word by (unfold scalar in Hc; lia).
    eapply wp_store; [reflexivity|cbn [smem with_mem stbytes Z.of_nat Pos.of_succ_nat]; lia|]. rewrite with_mem_twice. cbn [smem with_mem stbytes].
    wpure. rewrite Z.add_0_r. set (m2 := stn m' (o + 4 * n) 4 _).
    assert (HO2 : only_changes (smem st) m2 o (4 * (n + 1))).
    { eapply only_trans; [eapply only_weaken; [exact HO|lia|lia]|]. eapply only_weaken; [apply only_stn|lia|lia]. }
    assert (HM2 : bytes_at m2 o (length (utf8_mem (cs ++ [c]))) = utf8_mem (cs ++ [c])).
    { unfold utf8_mem. rewrite flat_map_app. cbn [flat_map]. rewrite app_nil_r, app_length, bytes_at_app. fold (utf8_mem cs). f_equal.
      - unfold m2. rewrite bytes_at_stn_other; [exact HM|]. rewrite len4. fold n. lia.
      - rewrite len4. fold n. unfold m2. apply stn4_be4. }
    assert (HW2 : Z.of_nat (length (utf8 (cs ++ [c]))) = W + nn).
    { unfold utf8. rewrite flat_map_app, app_length. cbn [flat_map]. rewrite app_nil_r. fold (utf8 cs). subst W. lia. }
    assert (Hn2 : Z.of_nat (length (cs ++ [c])) = n + 1) by (rewrite app_length; cbn [length]; subst n; lia).
    assert (Hsc2 : Forall scalar (cs ++ [c])) by (apply Forall_app; split; auto).
    assert (HPRE : forall rest, bs = utf8 cs ++ rest -> (length (utf8_char c) <= length rest)%nat -> exists rest', rest = utf8_char c ++ rest').
    { intros rest Hr Hle. exists (skipn (length (utf8_char c)) rest). rewrite <- (firstn_skipn (length (utf8_char c)) rest) at 1. f_equal.
      etransitivity; [|exact Hfst]. rewrite Hnn, Nat2Z.id.
      assert (HN : forall j, (j < length (utf8_char c))%nat -> nth j rest 0 = nth j [rd m' p; rd m' (p+1); rd m' (p+2); rd m' (p+3)] 0).
      { intros j Hj. rewrite <- (HRD rest j Hr) by lia. destruct j as [|[|[|[|j]]]]; cbn [nth Z.of_nat Pos.of_succ_nat Pos.succ]; try reflexivity; [f_equal; lia|lia]. }
      apply (nth_ext _ _ 0 0).
      - rewrite !firstn_length. cbn [length]. lia.
      - intros j Hj. rewrite firstn_length in Hj. assert (Hjk : (j < length (utf8_char c))%nat) by lia. rewrite <- !(nth_firstn_lt_ j (length (utf8_char c))) by exact Hjk. apply HN. exact Hjk. }
    assert (HD2 : (L - W - nn) mod m32 = 0 <-> W + nn = L).
    { assert (L - W - nn > - m32) by lia. assert (L - W - nn < m32) by lia. split; [intros Hz; zlia|intros Hz; replace (L - W - nn) with 0 by lia; reflexivity]. }
    rewrite (Z.mod_small (o + 4 * n + 4)) by lia. apply wp_brif_eqz; intros Hbr.
    + rewrite HD2 in Hbr. unfold QL. wfin. wnil. wpure. wnil. cbn [app].
      destruct (Hpos ltac:(lia)) as (rest & Hr).
      destruct (HPRE rest Hr) as (rest' & Hr'). { assert (HL : L = W + Z.of_nat (length rest)) by (subst L W; rewrite Hr, app_length; lia). lia. }
      assert (rest' = []). { assert (HL : L = W + Z.of_nat (length rest)) by (subst L W; rewrite Hr, app_length; lia). rewrite Hr', app_length in HL. destruct rest'; [reflexivity|cbn [length] in HL; lia]. }
      subst rest'. rewrite app_nil_r in Hr'.
      specialize (ROK (cs ++ [c]) m2). rewrite Hn2 in ROK. 
      assert (HUO : utf8_ok bs (cs ++ [c]) maxlen).
      { split; [split; [exact Hsc2|]|lia]. rewrite Hr, Hr'. unfold utf8. rewrite flat_map_app. cbn [flat_map]. rewrite app_nil_r. reflexivity. }
      rconv (ROK (or_introl HUO) HO2 HM2).
      rewrite Z.mod_small by lia. lia.
    + assert (Hbr' : W + nn <> L) by (intros Hz; apply Hbr, HD2, Hz). unfold QL. wfin.
      exists (k - 1). split; [lia|]. exists (cs ++ [c]), (VI32 c), b, m2. rewrite Hn2, HW2.
      split; [lia|]. split; [exact Hsc2|]. split.
      { replace (a + (W + nn)) with (p + nn) by lia. replace (L - (W + nn)) with (L - W - nn) by lia. replace (o + 4 * (n + 1)) with (o + 4 * n + 4) by lia. reflexivity. }
      split; [exact Hbr'|]. split; [exact HO2|]. split; [exact HM2|]. split.
      * intros Hlt. destruct (Hpos ltac:(lia)) as (rest & Hr). destruct (HPRE rest Hr) as (rest' & Hr').
        { assert (HL : L = W + Z.of_nat (length rest)) by (subst L W; rewrite Hr, app_length; lia). lia. }
        exists rest'. rewrite Hr, Hr'. unfold utf8. rewrite flat_map_app. cbn [flat_map]. rewrite app_nil_r, app_assoc. reflexivity.
      * intros Hgt cs0 Hu0. destruct (Z.lt_trichotomy W L) as [Hlt|[Heq|Hgt0]]; [|contradiction|apply (Hneg Hgt0 cs0 Hu0)].
        destruct (Hpos Hlt) as (rest & Hr). destruct (HREST rest cs0 Hr Hu0 Hlt) as (c0 & cs1 & _ & Hrest & Hc0 & _).
        assert (c = c0).
        { apply (char_unique c c0 (rd m' p) (rd m' (p+1)) (rd m' (p+2)) (rd m' (p+3))); try apply rd_range; auto.
          - etransitivity; [|exact Hfst]. rewrite Hnn, Nat2Z.id. reflexivity.
          - pose proof (utf8_char_nat c0). apply (nth_ext _ _ 0 0).
            + rewrite firstn_length. cbn [length]. lia.
            + intros j Hj. rewrite firstn_length in Hj. cbn [length] in Hj. rewrite <- (nth_firstn_lt_ j (length (utf8_char c0))) by lia.
              specialize (HRD rest j Hr). rewrite Hrest, app_length, app_nth1 in HRD by lia. specialize (HRD ltac:(lia)). rewrite <- HRD.
              destruct j as [|[|[|[|j]]]]; cbn [nth Z.of_nat Pos.of_succ_nat Pos.succ]; try reflexivity; [f_equal; lia|lia]. }
        subst c0. assert (HL : L = W + Z.of_nat (length rest)) by (subst L W; rewrite Hr, app_length; lia). rewrite Hrest, app_length in HL. lia.
  - intros Hdec ls. apply FAIL; [|eapply only_weaken; [exact HO|lia|lia]].
    intros cs0 [Hu0 _]. destruct (Z.lt_trichotomy W L) as [Hlt|[Heq|Hgt0]]; [|contradiction|apply (Hneg Hgt0 cs0 Hu0)].
    destruct (Hpos Hlt) as (rest & Hr). destruct (HREST rest cs0 Hr Hu0 Hlt) as (c0 & cs1 & _ & Hrest & Hc0 & _).
    rewrite (dec_char _ _ _ _ c0) in Hdec; [discriminate| | | | | |]; try apply rd_range; auto.
    pose proof (utf8_char_nat c0). apply (nth_ext _ _ 0 0).
    + rewrite firstn_length. cbn [length]. lia.
    + intros j Hj. rewrite firstn_length in Hj. cbn [length] in Hj. rewrite <- (nth_firstn_lt_ j (length (utf8_char c0))) by lia.
      specialize (HRD rest j Hr). rewrite Hrest, app_length, app_nth1 in HRD by lia. specialize (HRD ltac:(lia)). rewrite <- HRD.
      destruct j as [|[|[|[|j]]]]; cbn [nth Z.of_nat Pos.of_succ_nat Pos.succ]; try reflexivity; [f_equal; lia|lia].
Qed.
End Dec.
