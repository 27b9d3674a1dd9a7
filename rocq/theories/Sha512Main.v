(** * The standard library's SHA-512, continued: padding and the block loop (proof support) *)
From Coq Require Import ZArith String List Bool Lia.
Import ListNotations.
From Verif Require Import Wasm Std StdEnv WasmLogic WasmTac Spec SpecBytes Mem MemFacts Bytes ConvProofs ArithProofs BeProofs SpecHash HashFacts Sha256Proofs Sha256Main Sha512Proofs.
Open Scope string_scope.
Open Scope list_scope.
Open Scope Z_scope.

Section Sha512.
Context {HS : Type} (E : env HS) (HE : has_std E).
Implicit Types (st : store HS) (R : result HS -> Prop).
Ltac wfin := unfold qcall, qblock, qfunc; wcbn.
Ltac msz := cbn [smem with_mem msize stn upd mcopy mfill ldbytes stbytes]; rewrite ?msize_stn, ?msize_mcopy, ?msize_mfill.

(** the padded length *)
Definition plen512 (len : Z) : Z := 128 * ((len + 16) / 128) + 128.
Lemma plen512_pad len : 0 <= len -> plen512 len = len + 1 + (- (len + 17)) mod 128 + 16.
Proof.
  intros H. unfold plen512. pose proof (Z.div_mod (len + 16) 128 ltac:(lia)) as H1. pose proof (Z.mod_pos_bound (len + 16) 128 ltac:(lia)).
  assert ((- (len + 17)) mod 128 = 127 - (len + 16) mod 128); [|lia].
  symmetry. apply Z.mod_unique with (q := - ((len + 16) / 128) - 1); lia.
Qed.

Lemma be16_small v : 0 <= v < m64 -> be_bytes 16 v = repeat 0 8 ++ be_bytes 8 v.
Proof.
  intros H. unfold be_bytes. change 16%nat with (8 + 8)%nat. rewrite le_bytes_app. change (256 ^ Z.of_nat 8) with m64. rewrite (Z.div_small v) by exact H.
  rewrite rev_app_distr. reflexivity.
Qed.

Lemma pad_wp sp data n st R :
  gget (sglob st) "stack-pointer" = Some (VI32 sp) -> 1352 <= sp -> 0 <= data -> Z.of_nat n < 2 ^ 29 ->
  data + Z.of_nat n <= msize (smem st) -> (data + Z.of_nat n <= sp \/ sp + 64 <= data) ->
  sp + 704 + plen512 (Z.of_nat n) <= msize (smem st) -> msize (smem st) <= m32 -> consts (smem st) ->
  (forall m', only_changes (smem st) m' sp (704 + plen512 (Z.of_nat n)) -> arr 8 m' sp H512 ->
     bytes_at m' (sp + 704) (Z.to_nat (plen512 (Z.of_nat n))) = sha2_pad SHA512 (bytes_at (smem st) data n) ->
     R (RVals [VI32 (plen512 (Z.of_nat n))] (with_mem st m'))) ->
  wpf E "pad-sha512-data" [VI32 data; VI32 (Z.of_nat n)] st R.
Proof.
  intros Hg H0 Hd Hn Hdm Hdis Hm Hm32 Hc HR. set (m := smem st) in *. set (len := Z.of_nat n) in *.
  change (2 ^ 29) with 536870912 in Hn.
  pose proof (plen512_pad len ltac:(lia)) as HP. set (z := (- (len + 17)) mod 128) in *. assert (Hz : 0 <= z < 128) by (apply Z.mod_pos_bound; lia).
  assert (Hlor : (Z.lor ((len + 16) mod m32) 127 + 1) mod m32 = plen512 len).
  { rewrite (Z.mod_small (len + 16)) by lia. change 127 with (2 ^ 7 - 1). rewrite lor_fill by lia. change (2 ^ 7) with 128.
    fold (plen512 len). unfold plen512 in *. rewrite Z.mod_small by lia. lia. }
  set (B := plen512 len) in *. clearbody B.
  wenter HE. 
  apply wp_gget with (v := VI32 sp); [exact Hg|]. wpure. apply wp_memcopy; [msz; fold m; lia|msz; fold m; lia|]. 
  apply wp_gget with (v := VI32 sp); [exact Hg|]. wpure. rewrite (Z.mod_small (sp + 704)) by lia. apply wp_memcopy; [msz; fold m; lia|msz; fold m; lia|].
  wpure. rewrite Hlor. apply wp_gget with (v := VI32 sp); [exact Hg|]. wpure. rewrite (Z.mod_small (sp + len)) by lia.
  eapply wp_store; [reflexivity|msz; fold m; lia|]. wpure. apply wp_gget with (v := VI32 sp); [exact Hg|]. wpure.
  rewrite (Z.mod_small (sp + len)) by lia. rewrite (Z.mod_small (sp + len + 705)) by lia. rewrite (Z.mod_small (B - len)) by lia. rewrite (Z.mod_small (B - len - 8)) by lia.
  apply wp_memfill; [msz; fold m; lia|]. wpure. apply wp_gget with (v := VI32 sp); [exact Hg|]. wpure.
  rewrite (Z.mod_small (sp + B)) by lia. rewrite (Z.mod_small (sp + B - 8)) by lia. rewrite (Z.mod_small (len * 8)) by lia.
  eapply wp_store; [reflexivity|msz; fold m; lia|]. wpure. wnil.
  cbn [smem with_mem stbytes]. fold m. rewrite !with_mem_twice.
  set (m1 := mcopy m sp 648 64). set (m2 := mcopy m1 (sp + 704) data len). set (m3 := stn m2 (sp + len + 704) 4 128). set (m4 := mfill m3 (sp + len + 705) 0 (B - len - 8)).
  match goal with |- R (RVals _ (with_mem _ (stn m4 _ 8 ?v))) => assert (Hv : v = of_digits (be_bytes 8 (8 * len))) end.
  { rewrite <- swap64 by lia. replace (8 * len) with (len * 8) by lia. reflexivity. }
  rewrite Hv. rewrite stn_be by lia. replace (sp + B - 8 + 704) with (sp + 696 + B) by lia. set (m5 := write_bytes m4 _ _).
  assert (O1 : only_changes m m1 sp 64) by apply only_mcopy.
  assert (O2 : only_changes m1 m2 (sp + 704) len) by apply only_mcopy.
  assert (O3 : only_changes m2 m3 (sp + len + 704) 4) by apply only_stn.
  assert (O4 : only_changes m3 m4 (sp + len + 705) (B - len - 8)) by apply only_mfill.
  assert (O5 : only_changes m4 m5 (sp + 696 + B) 8) by (eapply only_weaken; [apply only_write| |]; rewrite ?len_be_bytes; lia).
  apply HR.
  - eapply only_trans; [eapply only_weaken; [exact O1|lia|lia]|]. eapply only_trans; [eapply only_weaken; [exact O2|lia|lia]|]. eapply only_trans; [eapply only_weaken; [exact O3|lia|lia]|].
    eapply only_trans; [eapply only_weaken; [exact O4|lia|lia]|]. eapply only_weaken; [exact O5|lia|lia].
  - pose proof (H512_at m Hc) as HA. eapply arr_only; [exact O5|cbn [length H512]; lia|]. eapply arr_only; [exact O4|cbn [length H512]; lia|].
    eapply arr_only; [exact O3|cbn [length H512]; lia|]. eapply arr_only; [exact O2|cbn [length H512]; lia|].
    intros i Hi. rewrite <- (HA i Hi). cbn [length H512] in Hi. unfold m1. apply ldn_copy; lia.
  - replace (Z.to_nat B) with (n + (1 + (Z.to_nat z + (8 + 8))))%nat by lia.
    rewrite 4 bytes_at_app.
    unfold sha2_pad. rewrite length_bytes_at. change (bits SHA512 / 8) with 8. change (2 * wbytes SHA512)%nat with 16%nat. change (16 * 8) with 128. change (2 * 8) with 16.
    fold len. replace (- (len + 1 + 16)) with (- (len + 17)) by lia. fold z. rewrite be16_small by lia.
    assert (HF : bytes_at m5 (sp + len + 705) (Z.to_nat z + 8) = repeat 0 (Z.to_nat z + 8)).
    { rewrite (only_bytes _ _ _ _ _ _ O5) by lia. unfold m4. replace (B - len - 8) with (Z.of_nat (Z.to_nat z + 8 + 1)) by lia.
      rewrite <- (firstn_bytes _ _ (Z.to_nat z + 8 + 1) (Z.to_nat z + 8)) by lia. rewrite bytes_at_mfill, (repeat_app _ (Z.to_nat z + 8)), firstn_app, repeat_length, Nat.sub_diag, firstn_O, app_nil_r.
      apply firstn_all2. rewrite repeat_length. lia. }
    rewrite repeat_app, bytes_at_app in HF. 
    f_equal; [|f_equal; [|rewrite app_assoc; rewrite (app_assoc (repeat 0 _)); f_equal]].
    + rewrite (only_bytes _ _ _ _ _ _ O5) by lia. rewrite (only_bytes _ _ _ _ _ _ O4) by lia. rewrite (only_bytes _ _ _ _ _ _ O3) by lia.
      unfold m2, len. rewrite bytes_at_mcopy_same. apply (only_bytes _ _ _ _ _ _ O1). lia.
    + rewrite (only_bytes _ _ _ _ _ _ O5) by lia. rewrite (only_bytes _ _ _ _ _ _ O4) by lia. 
      rewrite <- (firstn_bytes _ _ 4 1) by lia. unfold m3. replace (sp + 704 + len) with (sp + len + 704) by lia. rewrite bytes_at_stn_le. reflexivity.
    + replace (sp + 704 + len + Z.of_nat 1) with (sp + len + 705) by lia. exact HF.
    + replace (sp + 704 + len + Z.of_nat 1 + Z.of_nat (Z.to_nat z) + Z.of_nat 8) with (sp + 696 + B) by lia.
      pose proof (bytes_at_write (be_bytes 8 (8 * len)) m4 (sp + 696 + B) (be_bytes_byte _ _)) as HW. rewrite len_be_bytes in HW. exact HW.
Qed.

(** one block: [process-sha512-block], then [calculate-sha512] *)
Lemma block512_step is sp i h ls k st (Q : outcome HS -> Prop) :
  gget (sglob st) "stack-pointer" = Some (VI32 sp) -> 1352 <= sp -> 0 <= i -> sp + 704 + i + 128 <= msize (smem st) -> msize (smem st) <= m32 ->
  consts (smem st) -> length h = 8%nat -> arr 8 (smem st) sp h ->
  (forall m', only_changes (smem st) m' sp 704 -> arr 8 m' sp (sha2_compress SHA512 h (bytes_at (smem st) (sp + 704 + i) 128)) ->
     wp E is (mkcfg ls k (with_mem st m')) Q) ->
  wp E (Call "process-sha512-block" :: Call "calculate-sha512" :: is) (mkcfg ls (VI32 i :: k) st) Q.
Proof.
  intros Hg H0 Hi Hm Hm32 Hc Hh HA HR.
  wcall HE. apply process_block_wp with (sp := sp); [exact HE|exact Hg|lia|exact Hi|exact Hm|exact Hm32|]. intros m1 O1 A1. wfin.
  pose proof O1 as (Hs & _).
  wcall HE. eapply calculate_wp with (sp := sp); [exact HE|exact Hg|exact H0| | | |exact Hh| | |exact A1|]; cbn [smem with_mem] in *.
  - lia.
  - lia.
  - eapply consts_only; [exact O1|lia|exact Hc].
  - rewrite schedule_len, wd0_len. reflexivity.
  - eapply arr_only; [exact O1|rewrite Hh; lia|exact HA].
  - intros m2 O2 A2. wfin. rewrite with_mem_twice. apply HR.
    + eapply only_trans; [eapply only_weaken; [exact O1|lia|lia]|]. eapply only_weaken; [exact O2|lia|lia].
    + unfold sha2_compress. rewrite K512_ok. change (length K512 - 16)%nat with 64%nat. exact A2.
Qed.

Strategy 1000 [swizzle stn ldn].
Definition sw (m : mem) (a r i : Z) : mem := stn m (r + i) 16 (swizzle (ldn m (a + i) 16) C8).
Lemma sw_rd m m' a r i : 0 <= i -> (r + 64 <= a \/ a + 64 <= r) -> i <= 48 -> i mod 16 = 0 -> (forall x, a <= x < a + 64 -> rd m' x = rd m x) ->
  (forall j, 0 <= j < i -> rd m' (r + j) = rd m (a + swap 8 j)) ->
  (forall x, a <= x < a + 64 -> rd (sw m' a r i) x = rd m x) /\ (forall j, 0 <= j < i + 16 -> rd (sw m' a r i) (r + j) = rd m (a + swap 8 j)).
Proof.
  intros Hi Hd H48 H16 Ha Hr. unfold sw. split.
  - intros x Hx. rewrite rd_stn_other by lia. apply Ha, Hx.
  - intros j Hj. destruct (Z_lt_ge_dec j i).
    + rewrite rd_stn_other by lia. apply Hr. lia.
    + replace (r + j) with (r + i + (j - i)) by lia. rewrite (swizzle_rd m' (a + i) (r + i) C8 (swap 8) (j - i) swap8_const) by lia.
      assert (Hsw : swap 8 j = i + swap 8 (j - i)) by (unfold swap; zlia). assert (0 <= swap 8 (j - i) < 16) by (unfold swap; zlia).
      rewrite Ha by lia. f_equal. lia.
Qed.

Lemma store_calculated_wp sp r h st R :
  gget (sglob st) "stack-pointer" = Some (VI32 sp) -> 0 <= sp -> 0 <= r -> sp + 64 <= msize (smem st) -> r + 64 <= msize (smem st) -> msize (smem st) <= m32 ->
  (r + 64 <= sp \/ sp + 64 <= r) -> length h = 8%nat -> arr 8 (smem st) sp h ->
  (forall m', only_changes (smem st) m' r 64 -> bytes_at m' r 64 = flat_map (be_bytes 8) h -> R (RVals [] (with_mem st m'))) ->
  wpf E "store-calculated-sha512" [VI32 r] st R.
Proof.
  intros Hg H0 Hr Hm Hrm Hm32 Hd Hh HA HR. set (m := smem st) in *. wenter HE.
  do 4 (wpure; apply wp_gget with (v := VI32 sp); [exact Hg|]; apply wp_load; [msz; fold m; lia|]; wpure; eapply wp_store; [reflexivity|msz; fold m; lia|]).
  wnil. cbn [smem with_mem ldbytes stbytes]. fold m C8. rewrite !with_mem_twice. 
  set (n1 := stn m (r + 0) 16 (swizzle (ldn m (sp + 0) 16) C8)). change (stn m (r + 0) 16 (swizzle (ldn m (sp + 0) 16) C8)) with (sw m sp r 0) in n1.
  set (n2 := stn n1 (r + 16) 16 (swizzle (ldn n1 (sp + 16) 16) C8)). change (stn n1 (r + 16) 16 (swizzle (ldn n1 (sp + 16) 16) C8)) with (sw n1 sp r 16) in n2.
  set (n3 := stn n2 (r + 32) 16 (swizzle (ldn n2 (sp + 32) 16) C8)). change (stn n2 (r + 32) 16 (swizzle (ldn n2 (sp + 32) 16) C8)) with (sw n2 sp r 32) in n3.
  set (n4 := stn n3 (r + 48) 16 (swizzle (ldn n3 (sp + 48) 16) C8)). change (stn n3 (r + 48) 16 (swizzle (ldn n3 (sp + 48) 16) C8)) with (sw n3 sp r 48) in n4.
  destruct (sw_rd m m sp r 0 ltac:(lia) Hd ltac:(lia) ltac:(reflexivity) ltac:(reflexivity) ltac:(intros; lia)) as (A1 & B1).
  destruct (sw_rd m _ sp r 16 ltac:(lia) Hd ltac:(lia) ltac:(reflexivity) A1 B1) as (A2 & B2).
  destruct (sw_rd m _ sp r 32 ltac:(lia) Hd ltac:(lia) ltac:(reflexivity) A2 B2) as (A3 & B3).
  destruct (sw_rd m _ sp r 48 ltac:(lia) Hd ltac:(lia) ltac:(reflexivity) A3 B3) as (A4 & B4).
  apply HR.
  - unfold n4, n3, n2, n1, sw. repeat (eapply only_trans; [|eapply only_weaken; [apply only_stn| |]; lia]). apply only_refl.
  - replace 64%nat with (8 * length h)%nat by lia. apply (be_digest8 m _ sp). 1: exact HA. intros i Hi. apply B4. lia.
Qed.

Lemma sha512_buf_wp sp data n r st R :
  gget (sglob st) "stack-pointer" = Some (VI32 sp) -> 1352 <= sp -> 0 <= data -> 0 <= r -> Z.of_nat n < 2 ^ 29 ->
  data + Z.of_nat n <= msize (smem st) -> r + 64 <= msize (smem st) -> (data + Z.of_nat n <= sp \/ sp + 64 <= data) -> (r + 64 <= sp \/ sp + 64 <= r) ->
  sp + 704 + plen512 (Z.of_nat n) <= msize (smem st) -> msize (smem st) <= m32 -> consts (smem st) ->
  (forall m', msize m' = msize (smem st) ->
     (forall x, x < sp \/ sp + 704 + plen512 (Z.of_nat n) <= x -> x < r \/ r + 64 <= x -> rd m' x = rd (smem st) x) ->
     bytes_at m' r 64 = sha512 (bytes_at (smem st) data n) -> R (RVals [VI32 r; VI32 64] (with_mem st m'))) ->
  wpf E "stdlib.sha512-buf" [VI32 data; VI32 (Z.of_nat n); VI32 r] st R.
Proof.
  intros Hg H0 Hd Hr Hn Hdm Hrm Hdis Hrd Hm Hm32 Hc HR. set (m := smem st) in *. set (msg := bytes_at m data n) in *.
  assert (HB : exists nb, plen512 (Z.of_nat n) = 128 * Z.of_nat nb /\ (1 <= nb)%nat).
  { exists (Z.to_nat ((Z.of_nat n + 16) / 128 + 1)). pose proof (Z.div_pos (Z.of_nat n + 16) 128 ltac:(lia) ltac:(lia)). split; [unfold plen512|]; lia. }
  destruct HB as (nb & HB & Hnb).
  wenter HE. wpure. wcall HE. apply pad_wp with (sp := sp); auto. intros m1 O1 A1 P1. wfin. rewrite HB in *. wpure.
  set (blocks := pieces 128 (sha2_pad SHA512 msg)).
  assert (Hbl : length blocks = nb).
  { unfold blocks. rewrite pieces_len. fold m msg in P1. rewrite <- P1, length_bytes_at. replace (Z.to_nat (128 * Z.of_nat nb)) with (nb * 128)%nat by lia. apply Nat.div_mul. lia. }
  eapply wp_loop0 with (z := Z.of_nat nb) (I := fun z s => exists m2 j, z = Z.of_nat nb - Z.of_nat j /\ (j < nb)%nat /\
     s = mkcfg [VI32 data; VI32 (Z.of_nat n); VI32 r; VI32 (128 * Z.of_nat nb); VI32 (128 * Z.of_nat j)] [] (with_mem st m2) /\
     only_changes m m2 sp (704 + 128 * Z.of_nat nb) /\ arr 8 m2 sp (fold_left (sha2_compress SHA512) (firstn j blocks) H512) /\
     bytes_at m2 (sp + 704) (Z.to_nat (128 * Z.of_nat nb)) = sha2_pad SHA512 msg).
  - lia.
  - exists m1, 0%nat. split; [lia|]. split; [lia|]. split; [reflexivity|]. split; [exact O1|]. split; [exact A1|exact P1].
  - intros z ls st' Hz (m2 & j & -> & Hj & Hcf & O2 & A2 & P2). apply cfg_inj in Hcf as (-> & ->). pose proof O2 as (Hs2 & _).
    wpure. apply block512_step with (sp := sp) (h := fold_left (sha2_compress SHA512) (firstn j blocks) H512); cbn [smem with_mem]; auto; try lia.
    + eapply consts_only; [exact O2|lia|exact Hc].
    + apply state_len. reflexivity.
    + intros m3 O3 A3.
      assert (Hblk : bytes_at m2 (sp + 704 + 128 * Z.of_nat j) 128 = nth j blocks []).
      { symmetry. apply nth_error_nth. unfold blocks. rewrite pieces_nth.
        - rewrite <- P2, piece_bytes by lia. do 2 f_equal. lia.
        - rewrite <- pieces_len. fold blocks. lia. }
      rewrite Hblk, <- fold_firstn in A3 by lia. rewrite with_mem_twice.
      assert (O3' : only_changes m m3 sp (704 + 128 * Z.of_nat nb)) by (eapply only_trans; [exact O2|]; eapply only_weaken; [exact O3|lia|lia]).
      wpure. rewrite (Z.mod_small (128 * Z.of_nat j + 128)) by lia. wbrif Hq.
      * apply Z.ltb_ge in Hq. assert (S j = nb) as <- by lia. wnil. wfin. rewrite firstn_all2 in A3 by lia.
        pose proof O3' as (Hs3 & Hr3). wpure. wcall HE.
        apply store_calculated_wp with (sp := sp) (h := fold_left (sha2_compress SHA512) blocks H512); cbn [smem with_mem]; auto; try lia.
        -- apply state_len. reflexivity.
        -- intros m4 (Hs4 & Hr4) D4. wfin. wpure. wnil. rewrite with_mem_twice. apply HR.
           ++ congruence.
           ++ intros x Hx1 Hx2. rewrite Hr4 by lia. apply Hr3. lia.
           ++ rewrite D4. unfold sha512, sha2_hash, sha2_state. rewrite H512_ok. reflexivity.
      * apply Z.ltb_lt in Hq. wfin. exists (Z.of_nat nb - Z.of_nat (S j)). split; [lia|]. exists m3, (S j). split; [lia|]. split; [lia|].
        replace (128 * Z.of_nat (S j)) with (128 * Z.of_nat j + 128) by lia. split; [reflexivity|]. split; [exact O3'|]. split; [exact A3|].
        rewrite (only_bytes _ _ _ _ _ _ O3) by lia. exact P2.
Qed.

Lemma sha512_int_wp sp lo hi r st R :
  gget (sglob st) "stack-pointer" = Some (VI32 sp) -> 1352 <= sp -> 0 <= r -> r + 64 <= msize (smem st) -> (r + 64 <= sp \/ sp + 64 <= r) ->
  sp + 834 <= msize (smem st) -> msize (smem st) <= m32 -> consts (smem st) ->
  (forall m', msize m' = msize (smem st) -> (forall x, x < sp \/ sp + 834 <= x -> x < r \/ r + 64 <= x -> rd m' x = rd (smem st) x) ->
     bytes_at m' r 64 = sha512 (int_bytes lo hi) -> R (RVals [VI32 r; VI32 64] (with_mem st m'))) ->
  wpf E "stdlib.sha512-int" [VI64 lo; VI64 hi; VI32 r] st R.
Proof.
  intros Hg H0 Hr Hrm Hrd Hm Hm32 Hc HR. set (m := smem st) in *. wenter HE.
  apply wp_gget with (v := VI32 sp); [exact Hg|]. wpure. apply wp_memcopy; [msz; fold m; lia|msz; fold m; lia|].
  apply wp_gget with (v := VI32 sp); [exact Hg|]. wpure. eapply wp_store; [reflexivity|msz; fold m; lia|].
  apply wp_gget with (v := VI32 sp); [exact Hg|]. wpure. eapply wp_store; [reflexivity|msz; fold m; lia|].
  apply wp_gget with (v := VI32 sp); [exact Hg|]. wpure. eapply wp_store; [reflexivity|msz; fold m; lia|].
  apply wp_gget with (v := VI32 sp); [exact Hg|]. wpure. rewrite (Z.mod_small (sp + 724)) by lia. apply wp_memfill; [msz; fold m; lia|].
  apply wp_gget with (v := VI32 sp); [exact Hg|]. wpure. eapply wp_store; [reflexivity|msz; fold m; lia|].
  cbn [smem with_mem stbytes]. fold m. rewrite !with_mem_twice. wpure.
  set (m1 := mcopy m sp 648 64). set (m2 := stn m1 (sp + 704) 8 lo). set (m3 := stn m2 (sp + 712) 8 hi). set (m4 := stn m3 (sp + 720) 4 128).
  set (m5 := mfill m4 (sp + 724) 0 110). set (m6 := stn m5 (sp + 831) 1 128).
  assert (O1 : only_changes m m1 sp 64) by apply only_mcopy. assert (O2 : only_changes m1 m2 (sp + 704) 8) by apply only_stn.
  assert (O3 : only_changes m2 m3 (sp + 712) 8) by apply only_stn. assert (O4 : only_changes m3 m4 (sp + 720) 4) by apply only_stn.
  assert (O5 : only_changes m4 m5 (sp + 724) 110) by apply only_mfill. assert (O6 : only_changes m5 m6 (sp + 831) 1) by apply only_stn.
  assert (A6 : arr 8 m6 sp H512).
  { pose proof (H512_at m Hc) as HA. eapply arr_only; [exact O6|cbn [length H512]; lia|]. eapply arr_only; [exact O5|cbn [length H512]; lia|]. eapply arr_only; [exact O4|cbn [length H512]; lia|].
    eapply arr_only; [exact O3|cbn [length H512]; lia|]. eapply arr_only; [exact O2|cbn [length H512]; lia|].
    intros i Hi. rewrite <- (HA i Hi). cbn [length H512] in Hi. unfold m1. apply ldn_copy; lia. }
  assert (P6 : bytes_at m6 (sp + 704) 128 = sha2_pad SHA512 (int_bytes lo hi)).
  { transitivity (le_bytes 8 lo ++ le_bytes 8 hi ++ [128; 0; 0; 0] ++ repeat 0 107 ++ [128]).
    - change 128%nat with (8 + (8 + (4 + (107 + 1))))%nat. rewrite !bytes_at_app. change (Z.of_nat 8) with 8. change (Z.of_nat 4) with 4. change (Z.of_nat 107) with 107.
      replace (sp + 704 + 8) with (sp + 712) by lia. replace (sp + 712 + 8) with (sp + 720) by lia. replace (sp + 720 + 4) with (sp + 724) by lia. replace (sp + 724 + 107) with (sp + 831) by lia.
      f_equal; [|f_equal; [|f_equal; [|f_equal]]].
      + rewrite (only_bytes _ _ _ _ _ _ O6), (only_bytes _ _ _ _ _ _ O5), (only_bytes _ _ _ _ _ _ O4), (only_bytes _ _ _ _ _ _ O3) by lia. apply bytes_at_stn_le.
      + rewrite (only_bytes _ _ _ _ _ _ O6), (only_bytes _ _ _ _ _ _ O5), (only_bytes _ _ _ _ _ _ O4) by lia. apply bytes_at_stn_le.
      + rewrite (only_bytes _ _ _ _ _ _ O6), (only_bytes _ _ _ _ _ _ O5) by lia. unfold m4. rewrite bytes_at_stn_le. reflexivity.
      + rewrite (only_bytes _ _ _ _ _ _ O6) by lia. rewrite <- (firstn_bytes _ _ 110 107) by lia. unfold m5. change 110 with (Z.of_nat 110). rewrite bytes_at_mfill. reflexivity.
      + unfold m6. rewrite bytes_at_stn_le. reflexivity.
    - unfold sha2_pad, int_bytes. rewrite app_length, !len_le_bytes, <- app_assoc. do 2 f_equal; reflexivity. }
  assert (OA : only_changes m m6 sp 834).
  { eapply only_trans; [eapply only_weaken; [exact O1|lia|lia]|]. eapply only_trans; [eapply only_weaken; [exact O2|lia|lia]|]. eapply only_trans; [eapply only_weaken; [exact O3|lia|lia]|].
    eapply only_trans; [eapply only_weaken; [exact O4|lia|lia]|]. eapply only_trans; [eapply only_weaken; [exact O5|lia|lia]|]. eapply only_weaken; [exact O6|lia|lia]. }
  clearbody m6. clear O1 O2 O3 O4 O5 O6. pose proof OA as (Hs6 & _).
  apply block512_step with (sp := sp) (h := H512); cbn [smem with_mem]; auto; try lia.
  - eapply consts_only; [exact OA|lia|exact Hc].
  - intros m7 O7 A7. rewrite Z.add_0_r, P6, with_mem_twice in *.
    assert (O7' : only_changes m m7 sp 834) by (eapply only_trans; [exact OA|]; eapply only_weaken; [exact O7|lia|lia]). pose proof O7' as (Hs7 & Hr7).
    wpure. wcall HE. eapply store_calculated_wp with (sp := sp) (h := sha2_compress SHA512 H512 (sha2_pad SHA512 (int_bytes lo hi)));
      [exact Hg|lia|exact Hr|cbn [smem with_mem]; lia|cbn [smem with_mem]; lia|cbn [smem with_mem]; lia|exact Hrd|apply compress_len; reflexivity|exact A7|].
    + intros m8 (Hs8 & Hr8) D8. wfin. wpure. wnil. rewrite with_mem_twice. apply HR; [etransitivity; [exact Hs8|exact Hs7]| |].
      * intros x Hx1 Hx2. rewrite Hr8 by lia. apply Hr7. lia.
      * rewrite D8. unfold sha512, sha2_hash, sha2_state. rewrite H512_ok. change (16 * wbytes SHA512)%nat with 128%nat. rewrite (pieces_one 128 (sha2_pad SHA512 (int_bytes lo hi))); [|lia|].
        { cbn [fold_left]. change (wbytes SHA512) with 8%nat. reflexivity. }
        rewrite <- P6. apply length_bytes_at.
Qed.
End Sha512.
