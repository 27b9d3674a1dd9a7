(** * Proofs about the UTF-8 conversions. *)
From Coq Require Import ZArith String List Bool Lia.
Import ListNotations.
From Verif Require Import Wasm Std StdEnv WasmLogic WasmTac Spec SpecBytes SpecUtf8 ZBits Mem MemFacts ArithProofs NameProofs.
Open Scope string_scope.
Open Scope list_scope.
Open Scope Z_scope.

(** the byte-swap idiom *)
Lemma bswap_eq w : 0 <= w < m32 ->
  Z.lor ((Z.land w 255 * 16777216) mod m32) (Z.lor ((Z.land w 65280 * 256) mod m32) (Z.lor (Z.land w 16711680 / 256) (w / 16777216)))
  = w / 16777216 + 256 * (w / 65536 mod 256) + 65536 * (w / 256 mod 256) + 16777216 * (w mod 256).
Proof.
  intros Hw. set (b0 := w mod 256). set (b1 := w / 256 mod 256). set (b2 := w / 65536 mod 256). set (b3 := w / 16777216).
  assert (E0 : Z.land w 255 = b0) by (apply (land_mask w 8); lia).
  assert (Hx : w = b0 + 2 ^ 8 * (b1 + 2 ^ 8 * (b2 + 2 ^ 8 * b3))) by (subst b0 b1 b2 b3; change (2 ^ 8) with 256; zlia).
  assert (B0 : 0 <= b0 < 256) by (apply Z.mod_pos_bound; lia).
  assert (B1 : 0 <= b1 < 256) by (apply Z.mod_pos_bound; lia).
  assert (B2 : 0 <= b2 < 256) by (apply Z.mod_pos_bound; lia).
  assert (B3 : 0 <= b3 < 256) by (subst b3; zlia).
  clearbody b0 b1 b2 b3.
  assert (F : forall b, 0 <= b < 256 -> Z.land b 255 = b).
  { intros b Hb. change 255 with (2 ^ 8 - 1). rewrite land_mask by lia. apply Z.mod_small. exact Hb. }
  assert (E1 : Z.land w 65280 = 256 * b1).
  { rewrite Hx. change 65280 with (0 + 2 ^ 8 * (255 + 2 ^ 8 * 0)). rewrite !land_split by lia.
    rewrite !Z.land_0_r, F by auto. change (2 ^ 8) with 256. lia. }
  assert (E2 : Z.land w 16711680 = 65536 * b2).
  { rewrite Hx. change 16711680 with (0 + 2 ^ 8 * (0 + 2 ^ 8 * (255 + 2 ^ 8 * 0))). rewrite !land_split by lia.
    rewrite !Z.land_0_r, F by auto. change (2 ^ 8) with 256. lia. }
  rewrite E0, E1, E2. clear Hx F. 
  replace ((b0 * 16777216) mod m32) with (b0 * 2 ^ 24) by (rewrite Z.mod_small; lia).
  replace ((256 * b1 * 256) mod m32) with (b1 * 2 ^ 16) by (rewrite Z.mod_small; lia).
  replace (65536 * b2 / 256) with (b2 * 2 ^ 8) by zlia.
  rewrite (lor_add b3) by lia. rewrite (lor_add (b2 * 2 ^ 8 + b3)) by lia. rewrite (lor_add (b1 * 2 ^ 16 + _)) by lia. lia.
Qed.

Lemma bswap_be4 c : 0 <= c < m32 -> let w := le_val (be4 c) in
  0 <= w < m32 /\ w / 16777216 + 256 * (w / 65536 mod 256) + 65536 * (w / 256 mod 256) + 16777216 * (w mod 256) = c.
Proof.
  intros Hc. cbv zeta. cbn [be4 le_val]. change (2 ^ 24) with 16777216. change (2 ^ 16) with 65536. change (2 ^ 8) with 256.
  assert (c = c mod 256 + 256 * (c / 256 mod 256) + 65536 * (c / 65536 mod 256) + 16777216 * (c / 16777216 mod 256)) by zlia.
  pose proof (Z.mod_pos_bound c 256 ltac:(lia)). pose proof (Z.mod_pos_bound (c / 256) 256 ltac:(lia)).
  pose proof (Z.mod_pos_bound (c / 65536) 256 ltac:(lia)). pose proof (Z.mod_pos_bound (c / 16777216) 256 ltac:(lia)).
  set (b0 := c mod 256) in *. set (b1 := c / 256 mod 256) in *. set (b2 := c / 65536 mod 256) in *. set (b3 := c / 16777216 mod 256) in *.
  clearbody b0 b1 b2 b3. zlia.
Qed.

Lemma lor_low k x b : 0 <= k -> 0 <= x < 2 ^ k -> b mod 2 ^ k = 0 -> Z.lor b x = b + x.
Proof.
  intros Hk Hx Hb. rewrite (Z.div_mod b (2 ^ k)) by lia. rewrite Hb, Z.add_0_r, Z.mul_comm. apply lor_add; auto.
Qed.
Lemma land63 x : Z.land x 63 = x mod 64.
Proof. apply (land_mask x 6). lia. Qed.

Definition in_utf8 (c : Z) : Prop := 0 <= c < 1114112.
Lemma utf8_char_bytes c : in_utf8 c -> Forall (fun b => 0 <= b < 256) (utf8_char c).
Proof.
  unfold in_utf8, utf8_char. intros H.
  destruct (Z.ltb_spec c 128); [repeat constructor; lia|].
  destruct (Z.ltb_spec c 2048); [repeat constructor; zlia|].
  destruct (Z.ltb_spec c 65536); repeat constructor; zlia.
Qed.
Lemma utf8_char_len c : 1 <= Z.of_nat (length (utf8_char c)) <= 4.
Proof. unfold utf8_char. destruct (c <? 128), (c <? 2048), (c <? 65536); cbn [length]; lia. Qed.
Lemma utf8_bytes cs : Forall in_utf8 cs -> Forall (fun b => 0 <= b < 256) (utf8 cs).
Proof. induction 1; cbn [utf8 flat_map]; [constructor|]. apply Forall_app. split; [apply utf8_char_bytes|]; auto. Qed.
Lemma utf8_cons c cs : utf8 (c :: cs) = utf8_char c ++ utf8 cs.
Proof. reflexivity. Qed.
Lemma utf8_mem_cons c cs : utf8_mem (c :: cs) = be4 c ++ utf8_mem cs.
Proof. reflexivity. Qed.
Lemma len4 cs : Z.of_nat (length (utf8_mem cs)) = 4 * Z.of_nat (length cs).
Proof. induction cs as [|c cs IH]; [reflexivity|]. rewrite utf8_mem_cons, app_length, Nat2Z.inj_add, IH. cbn [length be4]. lia. Qed.

Lemma holds_4 m a c cs : holds m a (utf8_mem (c :: cs)) ->
  ldn m a 4 = le_val (be4 c) /\ 0 <= a /\ a + 4 <= msize m /\ msize m <= m32 /\ holds m (a + 4) (utf8_mem cs).
Proof.
  intros H. rewrite utf8_mem_cons in H. apply holds_app in H as [H1 H2]. change (Z.of_nat (length (be4 c))) with 4 in H2.
  pose proof (holds_len _ _ _ H1) as (? & ? & ?). change (Z.of_nat (length (be4 c))) with 4 in *.
  split; [|auto]. rewrite ldn_le. f_equal. apply (holds_eq _ _ _ H1).
Qed.

Section Utf8.
Context {HS : Type} (E : env HS) (HE : has_std E).
Implicit Types (st : store HS) (R : result HS -> Prop).
Ltac wfin := unfold qcall, qblock, qfunc; wcbn.

Lemma convert_scalars_wp a cs o st R :
  Forall in_utf8 cs -> holds (smem st) a (utf8_mem cs) -> 4 * Z.of_nat (length cs) < m32 -> 0 <= o -> o + Z.of_nat (length (utf8 cs)) <= msize (smem st) -> o + Z.of_nat (length (utf8 cs)) < m32 ->
  a + 4 * Z.of_nat (length cs) <= o \/ o + Z.of_nat (length (utf8 cs)) <= a ->
  R (RVals [VI32 (Z.of_nat (length (utf8 cs)))] (with_mem st (write_bytes (smem st) o (utf8 cs)))) ->
  wpf E "stdlib.convert-scalars-to-utf8" [VI32 a; VI32 (4 * Z.of_nat (length cs)); VI32 o] st R.
Proof.
  intros HF HA HL32 Ho Hoz Ho32 Hdis HR. wenter HE. wpure. wif Hl.
  { destruct cs; [|cbn [length] in Hl; lia]. wpure. wret. rconv HR. destruct st; reflexivity. }
  wnil. pose proof (holds_len _ _ _ HA) as (HA1 & HA2 & HA3). rewrite len4 in HA2.
  set (LN := 4 * Z.of_nat (length cs)) in *. assert (Hne : cs <> []) by (intros ->; discriminate Hl). clear Hl.
  set (LO := Z.of_nat (length (utf8 cs))) in *.
  eapply wp_loop0 with (z := Z.of_nat (length cs))
    (I := fun z s => exists done rest w1 w2 w3 w4 w5, cs = done ++ rest /\ rest <> [] /\ z = Z.of_nat (length rest) /\
       s = mkcfg [VI32 a; VI32 LN; VI32 (o + Z.of_nat (length (utf8 done))); VI32 (4 * Z.of_nat (length done)); VI32 o; w1; w2; w3; w4; w5] []
             (with_mem st (write_bytes (smem st) o (utf8 done)))).
  { lia. }
  { exists [], cs, (VI32 0), (VI32 0), (VI32 0), (VI32 0), (VI32 0). split; [reflexivity|]. split; [auto|]. split; [auto|].
    cbn [length utf8 flat_map write_bytes Z.of_nat]. rewrite with_mem_same, Z.add_0_r. reflexivity. }
  intros z ls st' Hz (dn & rest & w1 & w2 & w3 & w4 & w5 & Hcs & Hr & Hz2 & Hs). apply cfg_inj in Hs as (-> & ->).
  destruct rest as [|c rest]; [contradiction|]. clear Hr Hne.
  set (od := o + Z.of_nat (length (utf8 dn))) in *.
  assert (Hsz : Z.of_nat (length cs) = Z.of_nat (length dn) + 1 + Z.of_nat (length rest)).
  { rewrite Hcs, app_length. cbn [length]. lia. }
  assert (Hut : utf8 cs = utf8 dn ++ utf8_char c ++ utf8 rest) by (rewrite Hcs; unfold utf8; rewrite flat_map_app; reflexivity).
  assert (HLO : LO = Z.of_nat (length (utf8 dn)) + Z.of_nat (length (utf8_char c)) + Z.of_nat (length (utf8 rest))).
  { subst LO. rewrite Hut, !app_length. lia. }
  assert (Hc : in_utf8 c). { rewrite Hcs in HF. apply Forall_app in HF as [_ HF]. inversion HF; auto. }
  set (m1 := write_bytes (smem st) o (utf8 dn)).
  assert (HO1 : only_changes (smem st) m1 o LO) by (eapply only_weaken; [apply only_write|lia|lia]).
  assert (HA' : holds m1 (a + 4 * Z.of_nat (length dn)) (utf8_mem (c :: rest))).
  { assert (HA0 : holds m1 a (utf8_mem cs)) by (eapply only_holds; [exact HO1|rewrite len4; subst LN; lia|exact HA]).
    rewrite Hcs in HA0. unfold utf8_mem in HA0. rewrite flat_map_app in HA0. apply holds_app in HA0 as [_ HA0].
    fold (utf8_mem dn) (utf8_mem (c :: rest)) in HA0. rewrite len4 in HA0. exact HA0. }
  apply holds_4 in HA' as (HW & HW1 & HW2 & HW3 & _).
  assert (Hms : msize m1 = msize (smem st)) by apply HO1.
  wpure. rewrite (Z.mod_small (a + _)) by lia.
  apply wp_load; [cbn [smem with_mem ldbytes Z.of_nat Pos.of_succ_nat]; fold m1; lia|]. cbn [ldbytes ldval smem with_mem]. rewrite Z.add_0_r, HW. wpure.
  unfold in_utf8 in Hc. pose proof (bswap_be4 c ltac:(lia)) as [Hw1 Hw2]. cbv zeta in Hw1, Hw2.
  rewrite (bswap_eq _ Hw1), Hw2. clear Hw1 Hw2 HW.
  set (REST := [LGet 3; Const (VI32 4); B32 Add; LSet 3; LGet 3; LGet 1; R32 LtU; BrIf 0]).
  set (QL := qloop _ _ _ _ _ _ _).
  assert (TAIL : forall w2 w3 w4 w5, wp E REST (mkcfg [VI32 a; VI32 LN; VI32 (od + Z.of_nat (length (utf8_char c))); VI32 (4 * Z.of_nat (length dn)); VI32 o; VI32 c; w2; w3; w4; w5] []
      (with_mem st (write_bytes m1 od (utf8_char c)))) QL).
  { intros v2 v3 v4 v5. unfold REST. wpure. rewrite (Z.mod_small (_ + 4)) by (subst LN; lia).
    assert (HM : write_bytes m1 od (utf8_char c) = write_bytes (smem st) o (utf8 (dn ++ [c]))).
    { subst m1 od. unfold utf8. rewrite flat_map_app. cbn [flat_map]. rewrite app_nil_r. rewrite (write_app (flat_map utf8_char dn)). reflexivity. }
    assert (HU : Z.of_nat (length (utf8 (dn ++ [c]))) = Z.of_nat (length (utf8 dn)) + Z.of_nat (length (utf8_char c))).
    { unfold utf8. rewrite flat_map_app, app_length. cbn [flat_map]. rewrite app_nil_r. lia. }
    rewrite HM. wbrif Hlt; unfold QL; wfin.
    - assert (Hr0 : rest = []). { destruct rest; [auto|]. cbn [length] in *. subst LN. lia. }
      subst rest. wnil. wpure. wnil. cbn [app]. rconv HR.
      + rewrite Z.mod_small by lia. subst od. cbn [utf8 flat_map length] in HLO. subst LO. lia.
      + rewrite Hcs. reflexivity.
    - exists (Z.of_nat (length rest)). split; [cbn [length] in Hz2; lia|].
      exists (dn ++ [c]), rest, (VI32 c), v2, v3, v4, v5. split; [rewrite <- app_assoc; exact Hcs|].
      split; [intros ->; cbn [length] in *; subst LN; lia|]. split; [reflexivity|].
      rewrite app_length. cbn [length]. rewrite Nat2Z.inj_add, HU. subst od. cbn [Z.of_nat Pos.of_succ_nat].
      replace (4 * (Z.of_nat (length dn) + 1)) with (4 * Z.of_nat (length dn) + 4) by lia. rewrite Z.add_assoc. reflexivity. }
  assert (Hod : 0 <= od /\ od + Z.of_nat (length (utf8_char c)) <= msize m1 /\ od + Z.of_nat (length (utf8_char c)) < m32) by (subst od; lia).
  clearbody QL REST od m1.
  unfold utf8_char in TAIL, Hod. wif H1.
  { rewrite H1 in TAIL, Hod. cbn [length] in *. change (Z.of_nat 1) with 1 in *.
    wpure. eapply wp_store; [reflexivity|cbn; lia|]. wpure. wnil. rewrite Z.add_0_r. 
    rewrite (Z.mod_small (od + 1)) by lia. apply TAIL. }
  rewrite H1 in TAIL, Hod. wpure. wif H2.
  { rewrite H2 in TAIL, Hod. cbn [length] in *. change (Z.of_nat 2) with 2 in *.
    wpure. eapply wp_store; [reflexivity|cbn; lia|]. wpure. rewrite (Z.mod_small (od + 1)) by lia.
    eapply wp_store; [reflexivity|cbn [smem with_mem]; rewrite msize_stn; cbn; lia|]. wpure. wnil. wnil.
    rewrite !Z.add_0_r, (Z.mod_small (od + 1 + 1)) by lia. rewrite land63.
    rewrite (lor_low 5 (c / 64) 192) by (try reflexivity; zlia). rewrite (lor_low 6 (c mod 64) 128) by (try reflexivity; zlia).
    replace (od + 1 + 1) with (od + 2) by lia. apply TAIL. }
  rewrite H2 in TAIL, Hod. wpure. wif H3.
  { rewrite H3 in TAIL, Hod. cbn [length] in *. change (Z.of_nat 3) with 3 in *.
    wpure. eapply wp_store; [reflexivity|cbn; lia|]. wpure. rewrite (Z.mod_small (od + 1)) by lia.
    eapply wp_store; [reflexivity|cbn [smem with_mem]; rewrite msize_stn; cbn; lia|]. wpure. rewrite (Z.mod_small (od + 1 + 1)) by lia.
    eapply wp_store; [reflexivity|cbn [smem with_mem]; rewrite !msize_stn; cbn; lia|]. wpure. wnil. wnil. wnil.
    rewrite !Z.add_0_r, (Z.mod_small (od + 1 + 1 + 1)) by lia. rewrite !land63.
    rewrite (lor_low 4 (c / 4096) 224) by (try reflexivity; zlia). rewrite (lor_low 6 (c mod 64) 128) by (try reflexivity; zlia).
    rewrite (lor_low 6 (c / 64 mod 64) 128) by (try reflexivity; zlia).
    replace (od + 1 + 1 + 1) with (od + 3) by lia. apply TAIL. }
  rewrite H3 in TAIL, Hod. wpure. wif H4; [|lia].
  { cbn [length] in *. change (Z.of_nat 4) with 4 in *.
    wpure. eapply wp_store; [reflexivity|cbn; lia|]. wpure. rewrite (Z.mod_small (od + 1)) by lia.
    eapply wp_store; [reflexivity|cbn [smem with_mem]; rewrite msize_stn; cbn; lia|]. wpure. rewrite (Z.mod_small (od + 1 + 1)) by lia.
    eapply wp_store; [reflexivity|cbn [smem with_mem]; rewrite !msize_stn; cbn; lia|]. wpure. rewrite (Z.mod_small (od + 1 + 1 + 1)) by lia.
    eapply wp_store; [reflexivity|cbn [smem with_mem]; rewrite !msize_stn; cbn; lia|]. wpure. wnil. wnil. wnil. wnil.
    rewrite !Z.add_0_r, (Z.mod_small (od + 1 + 1 + 1 + 1)) by lia. rewrite !land63.
    rewrite (lor_low 3 (c / 262144) 240) by (try reflexivity; zlia). rewrite (lor_low 6 (c mod 64) 128) by (try reflexivity; zlia).
    rewrite (lor_low 6 (c / 64 mod 64) 128) by (try reflexivity; zlia). rewrite (lor_low 6 (c / 4096 mod 64) 128) by (try reflexivity; zlia).
    replace (od + 1 + 1 + 1 + 1) with (od + 4) by lia. apply TAIL. }
Qed.
End Utf8.
