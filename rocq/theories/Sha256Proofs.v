(** * The standard library's SHA-256 (proof support) *)
From Coq Require Import ZArith String List Bool Lia.
Import ListNotations.
From Verif Require Import Wasm Std StdEnv WasmLogic WasmTac Spec SpecBytes Mem MemFacts Bytes ConvProofs ArithProofs BeProofs SpecHash HashFacts.
Open Scope string_scope.
Open Scope list_scope.
Open Scope Z_scope.

Definition C4 : Z := 16018520953223639909183530438118932995.

Lemma sum4 a b c d n : (((a + b) mod n + c) mod n + d) mod n = (d + c + b + a) mod n.
Proof. rewrite Zplus_mod_idemp_l, <- Z.add_assoc, Zplus_mod_idemp_l. f_equal. ring. Qed.
Lemma sum5 a b c d e n : ((((a + b) mod n + c) mod n + d) mod n + e) mod n = (a + b + c + d + e) mod n.
Proof. rewrite <- Zplus_mod_idemp_l, sum4, Zplus_mod_idemp_l. rewrite Zplus_mod_idemp_l. f_equal. ring. Qed.

Ltac pows H := repeat match type of H with context [2 ^ ?c] => let v := eval vm_compute in (2 ^ c) in change (2 ^ c) with v in H end.

Section Sha256.
Context {HS : Type} (E : env HS) (HE : has_std E).
Implicit Types (st : store HS) (R : result HS -> Prop).
Ltac wfin := unfold qcall, qblock, qfunc; wcbn.
Ltac msz := cbn [smem with_mem msize stn upd mcopy mfill ldbytes stbytes]; rewrite ?msize_stn, ?msize_mcopy, ?msize_mfill.

Lemma wp_vswizzle is ls a b k st Q : wp E is (mkcfg ls (VV128 (swizzle a b) :: k) st) Q ->
  wp E (VSwizzle :: is) (mkcfg ls (VV128 b :: VV128 a :: k) st) Q.
Proof. intros H. eapply wp_step1; [reflexivity| |exact H]. reflexivity. Qed.

(** ** block64 *)
Definition ws0 (m : mem) (a : Z) : list Z := map be_value (pieces 4 (bytes_at m a 64)).
Lemma ws0_len m a : length (ws0 m a) = 16%nat.
Proof. unfold ws0. rewrite map_length, pieces_len, length_bytes_at. reflexivity. Qed.
Lemma ws0_nth m a i : (i < 16)%nat -> nth i (ws0 m a) 0 = be_value (bytes_at m (a + 4 * Z.of_nat i) 4).
Proof.
  intros Hi. unfold ws0. erewrite nth_error_nth; [reflexivity|]. rewrite nth_error_map, pieces_nth by (rewrite length_bytes_at; exact Hi).
  cbn [option_map]. rewrite piece_bytes by lia. do 3 f_equal. lia.
Qed.

Lemma block64_wp data sp st R :
  gget (sglob st) "stack-pointer" = Some (VI32 sp) -> 0 <= sp -> 0 <= data -> sp + 288 + data + 64 <= msize (smem st) -> msize (smem st) <= m32 ->
  (forall m', only_changes (smem st) m' (sp + 32) 256 -> arr 4 m' (sp + 32) (schedule SHA256 48 (ws0 (smem st) (sp + 288 + data))) -> R (RVals [] (with_mem st m'))) ->
  wpf E "block64" [VI32 data] st R.
Proof.
  intros Hg H0 H1 Hm Hm32 HR. set (m := smem st) in *. wenter HE.
  apply wp_gget with (v := VI32 sp); [exact Hg|]. wpure. rewrite (Z.mod_small (sp + data)) by lia.
  eapply wp_loop0 with (z := 4) (I := fun z c => exists m1 j, z = 4 - j /\ 0 <= j < 4 /\
     c = mkcfg [VI32 (sp + data); VI32 sp; VI32 (16 * j); VI32 0] [] (with_mem st m1) /\
     only_changes m m1 (sp + 32) 256 /\ forall i, 0 <= i < 16 * j -> rd m1 (sp + 32 + i) = rd m (sp + 288 + data + swap 4 i)).
  - lia.
  - exists m, 0. split; [lia|]. split; [lia|]. split; [unfold m; rewrite with_mem_same; reflexivity|]. split; [apply only_refl|]. intros; lia.
  - intros z ls st' Hz (m1 & j & -> & Hj & Hc & Ho & Hr). apply cfg_inj in Hc as (-> & ->). pose proof Ho as (Hs1 & Hr1).
    wpure. rewrite !Z.mod_small by lia. apply wp_load; [msz; lia|]. wpure. eapply wp_store; [reflexivity|msz; lia|]. wpure.
    rewrite Z.mod_small by lia. cbn [ldbytes stbytes smem with_mem].
    rewrite with_mem_twice. set (m2 := stn m1 (sp + 16 * j + 32) 16 _).
    assert (Ho2 : only_changes m m2 (sp + 32) 256).
    { eapply only_trans; [exact Ho|]. eapply only_weaken; [apply only_stn| |]; lia. }
    assert (Hr2 : forall i, 0 <= i < 16 * (j + 1) -> rd m2 (sp + 32 + i) = rd m (sp + 288 + data + swap 4 i)).
    { intros i Hi. destruct (Z_lt_ge_dec i (16 * j)) as [Hlt|Hge].
      - unfold m2. rewrite rd_stn_other by lia. apply Hr. lia.
      - replace (sp + 32 + i) with (sp + 16 * j + 32 + (i - 16 * j)) by lia. unfold m2. rewrite (swizzle_rd m1 _ _ C4 (swap 4) (i - 16 * j) swap4_const) by lia.
        assert (Hsw : swap 4 i = 16 * j + swap 4 (i - 16 * j)) by (unfold swap; zlia). assert (0 <= swap 4 (i - 16 * j) < 16) by (unfold swap; zlia).
        rewrite Hr1 by lia. f_equal. lia. }
    wbrif Hc.
    + (* done *) apply Z.ltb_ge in Hc. assert (j = 3) as -> by lia. wnil. wcbn. wpure.
      set (W0 := ws0 m (sp + 288 + data)).
      assert (HA0 : arr 4 m2 (sp + 32) W0).
      { intros i Hi. unfold W0 in Hi |- *. rewrite ws0_len in Hi. rewrite ws0_nth by exact Hi. apply ldn4_swap. intros k Hk.
        replace (sp + 32 + Z.of_nat 4 * Z.of_nat i + k) with (sp + 32 + (4 * Z.of_nat i + k)) by lia. rewrite Hr2 by lia. f_equal. unfold swap. zlia. }
      clear Hr Hr2 Hr1. clearbody m2. clear Ho m1 Hs1.
      eapply wp_loop0 with (z := 48) (I := fun z c => exists m1 j x y, z = 48 - Z.of_nat j /\ (j < 48)%nat /\
         c = mkcfg [VI32 x; VI32 sp; VI32 (4 * Z.of_nat j); VI32 y] [] (with_mem st m1) /\
         only_changes m m1 (sp + 32) 256 /\ arr 4 m1 (sp + 32) (schedule SHA256 j W0)).
      * lia.
      * exists m2, 0%nat, (sp + data), 0. split; [lia|]. split; [lia|]. split; [reflexivity|]. split; [exact Ho2|exact HA0].
      * intros z ls st' Hz' (m1 & j & x & y & -> & Hj' & Hc' & Ho & HA). apply cfg_inj in Hc' as (-> & ->). pose proof Ho as (Hs1 & _).
        assert (HL : length (schedule SHA256 j W0) = (16 + j)%nat) by (rewrite schedule_len; unfold W0; rewrite ws0_len; reflexivity).
        wpure. rewrite (Z.mod_small (sp + 4 * Z.of_nat j)) by lia. rewrite (Z.mod_small (sp + 4 * Z.of_nat j + 64)) by lia.
        apply wp_load; [msz; lia|]. wpure. apply wp_load; [msz; lia|]. wpure. apply wp_load; [msz; lia|]. wpure. apply wp_load; [msz; lia|]. wpure.
        cbn [ldbytes smem with_mem]. set (S := schedule SHA256 j W0) in *.
        rewrite (arr_get 4 m1 (sp + 32) S j (sp + 4 * Z.of_nat j + 32)) by (try exact HA; lia).
        rewrite (arr_get 4 m1 (sp + 32) S (j + 1) (sp + 4 * Z.of_nat j + 36)) by (try exact HA; lia).
        rewrite (arr_get 4 m1 (sp + 32) S (j + 9) (sp + 4 * Z.of_nat j + 68)) by (try exact HA; lia).
        rewrite (arr_get 4 m1 (sp + 32) S (j + 14) (sp + 4 * Z.of_nat j + 88)) by (try exact HA; lia).
        eapply wp_store; [reflexivity|msz; lia|]. wpure. rewrite (Z.mod_small (4 * Z.of_nat j + 4)) by lia. cbn [stbytes smem with_mem].
        match goal with |- context [stn m1 _ 4 ?v] => assert (Hv : v = sched_next SHA256 S) end.
        { unfold sched_next. rewrite HL. replace (16 + j - 2)%nat with (j + 14)%nat by lia. replace (16 + j - 7)%nat with (j + 9)%nat by lia.
          replace (16 + j - 15)%nat with (j + 1)%nat by lia. replace (16 + j - 16)%nat with j by lia.
          cbn [bits sigma0 sigma1 SHA256]. unfold rot2s. rewrite !rot32, !shr_div by lia. change (2 ^ 32) with m32.
          rewrite sum4.
          change (2 ^ 7) with 128. change (2 ^ (32 - 7)) with 33554432. change (2 ^ 18) with 262144. change (2 ^ (32 - 18)) with 16384. change (2 ^ 3) with 8.
          change (2 ^ 17) with 131072. change (2 ^ (32 - 17)) with 32768. change (2 ^ 19) with 524288. change (2 ^ (32 - 19)) with 8192. change (2 ^ 10) with 1024. reflexivity. }
        rewrite Hv. 
        replace (sp + 4 * Z.of_nat j + 64 + 32) with (sp + 32 + Z.of_nat 4 * Z.of_nat (length S)) by lia.
        rewrite with_mem_twice. set (m3 := stn m1 _ 4 _).
        assert (HA3 : arr 4 m3 (sp + 32) (schedule SHA256 (Datatypes.S j) W0)).
        { rewrite schedule_snoc. fold S. apply arr_snoc; [|exact HA]. change (256 ^ Z.of_nat 4) with (2 ^ bits SHA256). apply sched_bound. cbn. lia. }
        assert (Ho3 : only_changes m m3 (sp + 32) 256).
        { eapply only_trans; [exact Ho|]. eapply only_weaken; [apply only_stn| |]; lia. }
        wbrif Hc2.
        -- apply Z.ltb_ge in Hc2. assert (j = 47)%nat as -> by lia. wnil. wnil. apply HR; [exact Ho3|exact HA3].
        -- apply Z.ltb_lt in Hc2. wfin. exists (48 - Z.of_nat (Datatypes.S j)). split; [lia|]. eexists m3, (Datatypes.S j), _, _. split; [reflexivity|]. split; [lia|].
           split; [|split; [exact Ho3|exact HA3]]. replace (4 * Z.of_nat (Datatypes.S j)) with (4 * Z.of_nat j + 4) by lia. reflexivity.
    + apply Z.ltb_lt in Hc. wfin. exists (4 - (j + 1)). split; [lia|]. exists m2, (j + 1). split; [lia|]. split; [lia|].
      split; [|split; [exact Ho2|exact Hr2]]. replace (16 * (j + 1)) with (16 * j + 16) by lia. reflexivity.
Qed.

(** ** working-vars *)
Lemma arr8 b m a w0 w1 w2 w3 w4 w5 w6 w7 : arr b m a [w0; w1; w2; w3; w4; w5; w6; w7] <->
  (ldn m a b = w0 /\ ldn m (a + Z.of_nat b) b = w1 /\ ldn m (a + 2 * Z.of_nat b) b = w2 /\ ldn m (a + 3 * Z.of_nat b) b = w3 /\
   ldn m (a + 4 * Z.of_nat b) b = w4 /\ ldn m (a + 5 * Z.of_nat b) b = w5 /\ ldn m (a + 6 * Z.of_nat b) b = w6 /\ ldn m (a + 7 * Z.of_nat b) b = w7).
Proof.
  split.
  - intros H. 
    pose proof (H 0%nat ltac:(cbn; lia)) as H0. pose proof (H 1%nat ltac:(cbn; lia)) as H1. pose proof (H 2%nat ltac:(cbn; lia)) as H2. pose proof (H 3%nat ltac:(cbn; lia)) as H3.
    pose proof (H 4%nat ltac:(cbn; lia)) as H4. pose proof (H 5%nat ltac:(cbn; lia)) as H5. pose proof (H 6%nat ltac:(cbn; lia)) as H6. pose proof (H 7%nat ltac:(cbn; lia)) as H7. cbn [nth] in *.
    repeat split; (etransitivity; [|eassumption]); f_equal; lia.
  - intros (H0 & H1 & H2 & H3 & H4 & H5 & H6 & H7) i Hi. cbn [length] in Hi.
    do 8 (destruct i as [|i]; [cbn [nth]; match goal with H : ldn _ _ _ = ?w |- _ = ?w => rewrite <- H end; f_equal; lia|]). lia.
Qed.

Definition K256 : list Z := Eval vm_compute in KK SHA256.
Lemma K256_ok : KK SHA256 = K256.
Proof. vm_cast_no_check (eq_refl K256). Qed.
Lemma K256_at m : consts m -> arr 4 m 32 K256.
Proof. intros H. apply consts_arr; [exact H|lia|cbn; lia|vm_compute; reflexivity]. Qed.

Definition add8 (p : Z * Z) : Z := add_w 32 (fst p) (snd p).

Lemma working_vars_wp sp h W st R : gget (sglob st) "stack-pointer" = Some (VI32 sp) -> 1352 <= sp -> sp + 288 <= msize (smem st) -> msize (smem st) <= m32 ->
  consts (smem st) -> length h = 8%nat -> length W = 64%nat -> arr 4 (smem st) sp h -> arr 4 (smem st) (sp + 32) W ->
  (forall m', only_changes (smem st) m' sp 32 -> arr 4 m' sp (map add8 (combine h (fold_left (sha2_round SHA256) (combine K256 W) h))) -> R (RVals [] (with_mem st m'))) ->
  wpf E "working-vars" [] st R.
Proof.
  intros Hg H0 Hm Hm32 Hk Hh HW HAh HAW HR. apply K256_at in Hk. set (m := smem st) in *. wenter HE.
  do 9 (destruct h as [|? h]; try discriminate Hh). rename z into a0, z0 into b0, z1 into c0, z2 into d0, z3 into e0, z4 into f0, z5 into g0, z6 into h0.
  apply arr8 in HAh. destruct HAh as (A0 & A1 & A2 & A3 & A4 & A5 & A6 & A7).
  replace (sp + Z.of_nat 4) with (sp + 4) in A1 by lia. replace (sp + 2 * Z.of_nat 4) with (sp + 8) in A2 by lia. replace (sp + 3 * Z.of_nat 4) with (sp + 12) in A3 by lia.
  replace (sp + 4 * Z.of_nat 4) with (sp + 16) in A4 by lia. replace (sp + 5 * Z.of_nat 4) with (sp + 20) in A5 by lia. replace (sp + 6 * Z.of_nat 4) with (sp + 24) in A6 by lia. replace (sp + 7 * Z.of_nat 4) with (sp + 28) in A7 by lia.
  apply wp_gget with (v := VI32 sp); [exact Hg|].
  wpure. do 8 (apply wp_load; [fold m; msz; lia|]; wpure). cbn [ldbytes]. fold m. rewrite Z.add_0_r, A0, A1, A2, A3, A4, A5, A6, A7.
  set (H8 := [a0; b0; c0; d0; e0; f0; g0; h0]).
  assert (HL : length (combine K256 W) = 64%nat) by (rewrite combine_length, HW; reflexivity).
  eapply wp_loop0 with (z := 64) (I := fun z s => exists a b c d e f g hh t1 t2 j, z = 64 - Z.of_nat j /\ (j < 64)%nat /\
     s = mkcfg [VI32 sp; VI32 a; VI32 b; VI32 c; VI32 d; VI32 e; VI32 f; VI32 g; VI32 hh; VI32 t1; VI32 t2; VI32 (4 * Z.of_nat j)] [] st /\
     fold_left (sha2_round SHA256) (firstn j (combine K256 W)) H8 = [a; b; c; d; e; f; g; hh]).
  - lia.
  - exists a0, b0, c0, d0, e0, f0, g0, h0, 0, 0, 0%nat. split; [lia|]. split; [lia|]. split; reflexivity.
  - intros z ls st' Hz (a & b & c & d & e & f & g & hh & t1 & t2 & j & -> & Hj & Hc & Hf). apply cfg_inj in Hc as (-> & ->).
    wpure. apply wp_load; [fold m; msz; lia|]. cbn [ldval ldbytes]. wpure. rewrite (Z.mod_small (sp + 4 * Z.of_nat j)) by lia. apply wp_load; [fold m; msz; lia|]. cbn [ldval ldbytes]. wpure.
    rewrite (Z.mod_small (4 * Z.of_nat j + 4)) by lia. cbn [ldbytes]. fold m.
    rewrite (arr_get 4 m 32 K256 j (4 * Z.of_nat j + 32)) by (try exact Hk; cbn [length K256]; lia).
    rewrite (arr_get 4 m (sp + 32) W j (sp + 4 * Z.of_nat j + 32)) by (try exact HAW; lia).
    pose proof (fold_firstn (sha2_round SHA256) (combine K256 W) (0, 0) H8 j ltac:(lia)) as Hn. rewrite Hf, (combine_nth' K256 W 0 0 j) in Hn by (cbn [length K256]; lia).
    set (k := nth j K256 0) in *. set (w := nth j W 0) in *. clearbody k w. cbn [sha2_round fst snd] in Hn.
    cbn [bits Sigma0 Sigma1 SHA256] in Hn. unfold Ch, Maj, not_w, add_w, rot3 in Hn. rewrite !rot32 in Hn by lia.
    pows Hn. change (4294967296 - 1) with 4294967295 in Hn. rewrite !(sum5 hh).
    match type of Hn with _ = (?x mod _ :: _) => match x with ?t1 + ?t2 => set (T1 := t1) in *; set (T2 := t2) in * end end. clearbody T1 T2.
    wbrif Hc.
    + apply Z.ltb_ge in Hc. assert (j = 63)%nat as -> by lia. wnil. wcbn.
      assert (Hfl : fold_left (sha2_round SHA256) (combine K256 W) H8 = [(T1 + T2) mod 4294967296; a; b; c; (d + T1) mod 4294967296; e; f; g]).
      { rewrite <- Hn. f_equal. symmetry. apply firstn_all2. lia. }
      unfold H8 in Hfl; rewrite Hfl in HR. cbn [combine map add8 fst snd] in HR. unfold add8, add_w in HR. cbn [fst snd] in HR. change (2 ^ 32) with 4294967296 in HR.
      do 8 (wpure; apply wp_load; [msz; fold m; lia|]; cbn [ldval ldbytes smem with_mem]; wpure; eapply wp_store; [reflexivity|msz; fold m; lia|]; cbn [stbytes smem with_mem]; rewrite ?with_mem_twice).
      fold m. rewrite !Z.add_0_r. rewrite !ldn_stn_other by lia. rewrite A0, A1, A2, A3, A4, A5, A6, A7. wnil.
      apply HR.
      * repeat (eapply only_trans; [|eapply only_weaken; [apply only_stn| |]; lia]). apply only_refl.
      * apply arr8. change (Z.of_nat 4) with 4.
        change (2 * 4) with 8. change (3 * 4) with 12. change (4 * 4) with 16. change (5 * 4) with 20. change (6 * 4) with 24. change (7 * 4) with 28.
        repeat split; repeat (rewrite ldn_stn_other by lia); rewrite ldn_stn_same; change (256 ^ Z.of_nat 4) with 4294967296; apply Z.mod_mod; lia.
    + apply Z.ltb_lt in Hc. wfin. exists (64 - Z.of_nat (S j)). split; [lia|]. eexists _, _, _, _, _, _, _, _, _, _, (S j). split; [reflexivity|]. split; [lia|].
      replace (4 * Z.of_nat (S j)) with (4 * Z.of_nat j + 4) by lia. split; [reflexivity|exact Hn].
Qed.
End Sha256.
