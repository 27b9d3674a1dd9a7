(** * The standard library's SHA-512 (proof support) *)
From Coq Require Import ZArith String List Bool Lia.
Import ListNotations.
From Verif Require Import Wasm Std StdEnv WasmLogic WasmTac Spec SpecBytes Mem MemFacts Bytes ConvProofs ArithProofs BeProofs SpecHash HashFacts Sha256Proofs Sha256Main.
Open Scope string_scope.
Open Scope list_scope.
Open Scope Z_scope.

Definition C8 : Z := 10680758337341567148842519922299176455.

Section Sha512.
Context {HS : Type} (E : env HS) (HE : has_std E).
Implicit Types (st : store HS) (R : result HS -> Prop).
Ltac wfin := unfold qcall, qblock, qfunc; wcbn.
Ltac msz := cbn [smem with_mem msize stn upd mcopy mfill ldbytes stbytes]; rewrite ?msize_stn, ?msize_mcopy, ?msize_mfill.

(** ** process-sha512-block *)
Definition wd0 (m : mem) (a : Z) : list Z := map be_value (pieces 8 (bytes_at m a 128)).
Lemma wd0_len m a : length (wd0 m a) = 16%nat.
Proof. unfold wd0. rewrite map_length, pieces_len, length_bytes_at. reflexivity. Qed.
Lemma wd0_nth m a i : (i < 16)%nat -> nth i (wd0 m a) 0 = be_value (bytes_at m (a + 8 * Z.of_nat i) 8).
Proof.
  intros Hi. unfold wd0. erewrite nth_error_nth; [reflexivity|]. rewrite nth_error_map, pieces_nth by (rewrite length_bytes_at; exact Hi).
  cbn [option_map]. rewrite piece_bytes by lia. do 3 f_equal. lia.
Qed.

Lemma process_block_wp data sp st R :
  gget (sglob st) "stack-pointer" = Some (VI32 sp) -> 0 <= sp -> 0 <= data -> sp + 704 + data + 128 <= msize (smem st) -> msize (smem st) <= m32 ->
  (forall m', only_changes (smem st) m' (sp + 64) 640 -> arr 8 m' (sp + 64) (schedule SHA512 64 (wd0 (smem st) (sp + 704 + data))) -> R (RVals [] (with_mem st m'))) ->
  wpf E "process-sha512-block" [VI32 data] st R.
Proof.
  intros Hg H0 H1 Hm Hm32 HR. set (m := smem st) in *. wenter HE.
  apply wp_gget with (v := VI32 sp); [exact Hg|]. wpure. rewrite (Z.mod_small (sp + data)) by lia.
  eapply wp_loop0 with (z := 8) (I := fun z c => exists m1 j, z = 8 - j /\ 0 <= j < 8 /\
     c = mkcfg [VI32 data; VI32 sp; VI32 (sp + data); VI64 0; VI32 (16 * j)] [] (with_mem st m1) /\
     only_changes m m1 (sp + 64) 640 /\ forall i, 0 <= i < 16 * j -> rd m1 (sp + 64 + i) = rd m (sp + 704 + data + swap 8 i)).
  - lia.
  - exists m, 0. split; [lia|]. split; [lia|]. split; [unfold m; rewrite with_mem_same; reflexivity|]. split; [apply only_refl|]. intros; lia.
  - intros z ls st' Hz (m1 & j & -> & Hj & Hc & Ho & Hr). apply cfg_inj in Hc as (-> & ->). pose proof Ho as (Hs1 & Hr1).
    wpure. rewrite !Z.mod_small by lia. apply wp_load; [msz; lia|]. wpure. eapply wp_store; [reflexivity|msz; lia|]. wpure.
    rewrite Z.mod_small by lia. cbn [ldbytes stbytes smem with_mem].
    rewrite with_mem_twice. set (m2 := stn m1 (sp + 16 * j + 64) 16 _).
    assert (Ho2 : only_changes m m2 (sp + 64) 640).
    { eapply only_trans; [exact Ho|]. eapply only_weaken; [apply only_stn| |]; lia. }
    assert (Hr2 : forall i, 0 <= i < 16 * (j + 1) -> rd m2 (sp + 64 + i) = rd m (sp + 704 + data + swap 8 i)).
    { intros i Hi. destruct (Z_lt_ge_dec i (16 * j)) as [Hlt|Hge].
      - unfold m2. rewrite rd_stn_other by lia. apply Hr. lia.
      - replace (sp + 64 + i) with (sp + 16 * j + 64 + (i - 16 * j)) by lia. unfold m2. rewrite (swizzle_rd m1 _ _ C8 (swap 8) (i - 16 * j) swap8_const) by lia.
        assert (Hsw : swap 8 i = 16 * j + swap 8 (i - 16 * j)) by (unfold swap; zlia). assert (0 <= swap 8 (i - 16 * j) < 16) by (unfold swap; zlia).
        rewrite Hr1 by lia. f_equal. lia. }
    wbrif Hc.
    + (* done *) apply Z.ltb_ge in Hc. assert (j = 7) as -> by lia. wnil. wcbn. wpure.
      set (W0 := wd0 m (sp + 704 + data)).
      assert (HA0 : arr 8 m2 (sp + 64) W0).
      { intros i Hi. unfold W0 in Hi |- *. rewrite wd0_len in Hi. rewrite wd0_nth by exact Hi. apply ldn8_swap. intros k Hk.
        replace (sp + 64 + Z.of_nat 8 * Z.of_nat i + k) with (sp + 64 + (8 * Z.of_nat i + k)) by lia. rewrite Hr2 by lia. f_equal. unfold swap. zlia. }
      clear Hr Hr2 Hr1. clearbody m2. clear Ho m1 Hs1.
      eapply wp_loop0 with (z := 64) (I := fun z c => exists m1 j x y, z = 64 - Z.of_nat j /\ (j < 64)%nat /\
         c = mkcfg [VI32 data; VI32 sp; VI32 x; VI64 y; VI32 (8 * Z.of_nat j)] [] (with_mem st m1) /\
         only_changes m m1 (sp + 64) 640 /\ arr 8 m1 (sp + 64) (schedule SHA512 j W0)).
      * lia.
      * exists m2, 0%nat, (sp + data), 0. split; [lia|]. split; [lia|]. split; [reflexivity|]. split; [exact Ho2|exact HA0].
      * intros z ls st' Hz' (m1 & j & x & y & -> & Hj' & Hc' & Ho & HA). apply cfg_inj in Hc' as (-> & ->). pose proof Ho as (Hs1 & _).
        assert (HL : length (schedule SHA512 j W0) = (16 + j)%nat) by (rewrite schedule_len; unfold W0; rewrite wd0_len; reflexivity).
        wpure. rewrite (Z.mod_small (sp + 8 * Z.of_nat j)) by lia. rewrite (Z.mod_small (sp + 8 * Z.of_nat j + 128)) by lia.
        apply wp_load; [msz; lia|]. cbn [ldval ldbytes]. wpure. apply wp_load; [msz; lia|]. cbn [ldval ldbytes]. wpure. apply wp_load; [msz; lia|]. cbn [ldval ldbytes]. wpure. apply wp_load; [msz; lia|]. cbn [ldval ldbytes]. wpure.
        cbn [ldbytes smem with_mem]. set (S := schedule SHA512 j W0) in *.
        rewrite (arr_get 8 m1 (sp + 64) S j (sp + 8 * Z.of_nat j + 64)) by (try exact HA; lia).
        rewrite (arr_get 8 m1 (sp + 64) S (j + 1) (sp + 8 * Z.of_nat j + 72)) by (try exact HA; lia).
        rewrite (arr_get 8 m1 (sp + 64) S (j + 9) (sp + 8 * Z.of_nat j + 136)) by (try exact HA; lia).
        rewrite (arr_get 8 m1 (sp + 64) S (j + 14) (sp + 8 * Z.of_nat j + 176)) by (try exact HA; lia).
        eapply wp_store; [reflexivity|msz; lia|]. wpure. rewrite (Z.mod_small (8 * Z.of_nat j + 8)) by lia. cbn [stbytes smem with_mem].
        match goal with |- context [stn m1 _ 8 ?v] => assert (Hv : v = sched_next SHA512 S) end.
        { unfold sched_next. rewrite HL. replace (16 + j - 2)%nat with (j + 14)%nat by lia. replace (16 + j - 7)%nat with (j + 9)%nat by lia.
          replace (16 + j - 15)%nat with (j + 1)%nat by lia. replace (16 + j - 16)%nat with j by lia.
          rewrite sum4. set (w1 := nth (j + 1) S 0). set (w14 := nth (j + 14) S 0). set (w9 := nth (j + 9) S 0). set (w0 := nth j S 0). clearbody w0 w1 w9 w14.
          cbn [bits sigma0 sigma1 SHA512]. unfold rot2s. rewrite !rot64, !shr_div by lia. 
          match goal with |- _ = ?r => let H := fresh in remember r as rr eqn:H; pows H; rewrite H end. reflexivity. }
        rewrite Hv. 
        replace (sp + 8 * Z.of_nat j + 128 + 64) with (sp + 64 + Z.of_nat 8 * Z.of_nat (length S)) by lia.
        rewrite with_mem_twice. set (m3 := stn m1 _ 8 _).
        assert (HA3 : arr 8 m3 (sp + 64) (schedule SHA512 (Datatypes.S j) W0)).
        { rewrite schedule_snoc. fold S. apply arr_snoc; [|exact HA]. change (256 ^ Z.of_nat 8) with (2 ^ bits SHA512). apply sched_bound. cbn. lia. }
        assert (Ho3 : only_changes m m3 (sp + 64) 640).
        { eapply only_trans; [exact Ho|]. eapply only_weaken; [apply only_stn| |]; lia. }
        wbrif Hc2.
        -- apply Z.ltb_ge in Hc2. assert (j = 63)%nat as -> by lia. wnil. wnil. apply HR; [exact Ho3|exact HA3].
        -- apply Z.ltb_lt in Hc2. wfin. exists (64 - Z.of_nat (Datatypes.S j)). split; [lia|]. eexists m3, (Datatypes.S j), _, _. split; [reflexivity|]. split; [lia|].
           split; [|split; [exact Ho3|exact HA3]]. replace (8 * Z.of_nat (Datatypes.S j)) with (8 * Z.of_nat j + 8) by lia. reflexivity.
    + apply Z.ltb_lt in Hc. wfin. exists (8 - (j + 1)). split; [lia|]. exists m2, (j + 1). split; [lia|]. split; [lia|].
      split; [|split; [exact Ho2|exact Hr2]]. replace (16 * (j + 1)) with (16 * j + 16) by lia. reflexivity.
Qed.

(** ** calculate-sha512 *)
Definition K512 : list Z := Eval vm_compute in KK SHA512.
Lemma K512_ok : KK SHA512 = K512.
Proof. vm_cast_no_check (eq_refl K512). Qed.
Lemma K512_at m : consts m -> arr 8 m 712 K512.
Proof. intros H. apply consts_arr; [exact H|lia|cbn; lia|vm_compute; reflexivity]. Qed.

Definition add64 (p : Z * Z) : Z := add_w 64 (fst p) (snd p).

Lemma calculate_wp sp h W st R : gget (sglob st) "stack-pointer" = Some (VI32 sp) -> 1352 <= sp -> sp + 704 <= msize (smem st) -> msize (smem st) <= m32 ->
  consts (smem st) -> length h = 8%nat -> length W = 80%nat -> arr 8 (smem st) sp h -> arr 8 (smem st) (sp + 64) W ->
  (forall m', only_changes (smem st) m' sp 64 -> arr 8 m' sp (map add64 (combine h (fold_left (sha2_round SHA512) (combine K512 W) h))) -> R (RVals [] (with_mem st m'))) ->
  wpf E "calculate-sha512" [] st R.
Proof.
  intros Hg H0 Hm Hm32 Hk Hh HW HAh HAW HR. apply K512_at in Hk. set (m := smem st) in *. wenter HE.
  do 9 (destruct h as [|? h]; try discriminate Hh). rename z into a0, z0 into b0, z1 into c0, z2 into d0, z3 into e0, z4 into f0, z5 into g0, z6 into h0.
  apply arr8 in HAh. destruct HAh as (A0 & A1 & A2 & A3 & A4 & A5 & A6 & A7).
  replace (sp + Z.of_nat 8) with (sp + 8) in A1 by lia. replace (sp + 2 * Z.of_nat 8) with (sp + 16) in A2 by lia. replace (sp + 3 * Z.of_nat 8) with (sp + 24) in A3 by lia.
  replace (sp + 4 * Z.of_nat 8) with (sp + 32) in A4 by lia. replace (sp + 5 * Z.of_nat 8) with (sp + 40) in A5 by lia. replace (sp + 6 * Z.of_nat 8) with (sp + 48) in A6 by lia. replace (sp + 7 * Z.of_nat 8) with (sp + 56) in A7 by lia.
  apply wp_gget with (v := VI32 sp); [exact Hg|].
  wpure. do 8 (apply wp_load; [fold m; msz; lia|]; cbn [ldval ldbytes]; wpure). cbn [ldbytes]. fold m. rewrite Z.add_0_r, A0, A1, A2, A3, A4, A5, A6, A7.
  set (H8 := [a0; b0; c0; d0; e0; f0; g0; h0]).
  assert (HL : length (combine K512 W) = 80%nat) by (rewrite combine_length, HW; reflexivity).
  eapply wp_loop0 with (z := 80) (I := fun z s => exists a b c d e f g hh t1 t2 j, z = 80 - Z.of_nat j /\ (j < 80)%nat /\
     s = mkcfg [VI32 sp; VI32 (8 * Z.of_nat j); VI64 a; VI64 b; VI64 c; VI64 d; VI64 e; VI64 f; VI64 g; VI64 hh; VI64 t1; VI64 t2] [] st /\
     fold_left (sha2_round SHA512) (firstn j (combine K512 W)) H8 = [a; b; c; d; e; f; g; hh]).
  - lia.
  - exists a0, b0, c0, d0, e0, f0, g0, h0, 0, 0, 0%nat. split; [lia|]. split; [lia|]. split; reflexivity.
  - intros z ls st' Hz (a & b & c & d & e & f & g & hh & t1 & t2 & j & -> & Hj & Hc & Hf). apply cfg_inj in Hc as (-> & ->).
    wpure. apply wp_load; [fold m; msz; lia|]. cbn [ldval ldbytes]. wpure. rewrite (Z.mod_small (sp + 8 * Z.of_nat j)) by lia. apply wp_load; [fold m; msz; lia|]. cbn [ldval ldbytes]. wpure.
    rewrite (Z.mod_small (8 * Z.of_nat j + 8)) by lia. cbn [ldbytes]. fold m.
    rewrite (arr_get 8 m 712 K512 j (8 * Z.of_nat j + 712)) by (try exact Hk; cbn [length K512]; lia).
    rewrite (arr_get 8 m (sp + 64) W j (sp + 8 * Z.of_nat j + 64)) by (try exact HAW; lia).
    pose proof (fold_firstn (sha2_round SHA512) (combine K512 W) (0, 0) H8 j ltac:(lia)) as Hn. rewrite Hf, (combine_nth' K512 W 0 0 j) in Hn by (cbn [length K512]; lia).
    set (k := nth j K512 0) in *. set (w := nth j W 0) in *. clearbody k w. cbn [sha2_round fst snd] in Hn.
    cbn [bits Sigma0 Sigma1 SHA512] in Hn. unfold Ch, Maj, not_w, add_w, rot3 in Hn. rewrite !rot64 in Hn by lia.
    pows Hn. change (18446744073709551616 - 1) with 18446744073709551615 in Hn. rewrite !(sum5 hh).
    match type of Hn with _ = (?x mod _ :: _) => match x with ?t1 + ?t2 => set (T1 := t1) in *; set (T2 := t2) in * end end. clearbody T1 T2.
    wbrif Hc.
    + apply Z.ltb_ge in Hc. assert (j = 79)%nat as -> by lia. wnil. wcbn.
      assert (Hfl : fold_left (sha2_round SHA512) (combine K512 W) H8 = [(T1 + T2) mod 18446744073709551616; a; b; c; (d + T1) mod 18446744073709551616; e; f; g]).
      { rewrite <- Hn. f_equal. symmetry. apply firstn_all2. lia. }
      unfold H8 in Hfl; rewrite Hfl in HR. cbn [combine map add64 fst snd] in HR. unfold add64, add_w in HR. cbn [fst snd] in HR. change (2 ^ 64) with 18446744073709551616 in HR.
      do 8 (wpure; apply wp_load; [msz; fold m; lia|]; cbn [ldval ldbytes smem with_mem]; wpure; eapply wp_store; [reflexivity|msz; fold m; lia|]; cbn [stbytes smem with_mem]; rewrite ?with_mem_twice).
      fold m. rewrite !Z.add_0_r. rewrite !ldn_stn_other by lia. rewrite A0, A1, A2, A3, A4, A5, A6, A7. wnil.
      apply HR.
      * repeat (eapply only_trans; [|eapply only_weaken; [apply only_stn| |]; lia]). apply only_refl.
      * apply arr8. change (Z.of_nat 8) with 8.
        change (2 * 8) with 16. change (3 * 8) with 24. change (4 * 8) with 32. change (5 * 8) with 40. change (6 * 8) with 48. change (7 * 8) with 56.
        repeat split; repeat (rewrite ldn_stn_other by lia); rewrite ldn_stn_same; change (256 ^ Z.of_nat 8) with 18446744073709551616; apply Z.mod_mod; lia.
    + apply Z.ltb_lt in Hc. wfin. exists (80 - Z.of_nat (S j)). split; [lia|]. eexists _, _, _, _, _, _, _, _, _, _, (S j). split; [reflexivity|]. split; [lia|].
      replace (8 * Z.of_nat (S j)) with (8 * Z.of_nat j + 8) by lia. split; [reflexivity|exact Hn].
Qed.

Definition H512 : list Z := Eval vm_compute in HH SHA512.
Lemma H512_ok : HH SHA512 = H512.
Proof. vm_cast_no_check (eq_refl H512). Qed.
Lemma H512_at m : consts m -> arr 8 m 648 H512.
Proof. intros H. apply consts_arr; [exact H|lia|cbn; lia|vm_compute; reflexivity]. Qed.
End Sha512.
