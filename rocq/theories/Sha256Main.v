(** * The standard library's SHA-256, continued: padding and the block loop (proof support) *)
From Coq Require Import ZArith String List Bool Lia.
Import ListNotations.
From Verif Require Import Wasm Std StdEnv WasmLogic WasmTac Spec SpecBytes Mem MemFacts Bytes ConvProofs ArithProofs BeProofs SpecHash HashFacts Sha256Proofs.
Open Scope string_scope.
Open Scope list_scope.
Open Scope Z_scope.

Lemma ldn_copy m d s n k b : 0 <= k -> k + Z.of_nat b <= n -> ldn (mcopy m d s n) (d + k) b = ldn m (s + k) b.
Proof.
  revert k. induction b as [|b IH]; intros k Hk Hb; [reflexivity|]. cbn [ldn]. replace (d + k + 1) with (d + (k + 1)) by lia. replace (s + k + 1) with (s + (k + 1)) by lia.
  rewrite IH by lia. f_equal. rewrite rd_mcopy. replace ((d <=? d + k) && (d + k <? d + n))%bool with true by (symmetry; apply andb_true_intro; split; [apply Z.leb_le|apply Z.ltb_lt]; lia).
  f_equal. lia.
Qed.

Section Sha256.
Context {HS : Type} (E : env HS) (HE : has_std E).
Implicit Types (st : store HS) (R : result HS -> Prop).
Ltac wfin := unfold qcall, qblock, qfunc; wcbn.
Ltac msz := cbn [smem with_mem msize stn upd mcopy mfill ldbytes stbytes]; rewrite ?msize_stn, ?msize_mcopy, ?msize_mfill.

Definition H256 : list Z := Eval vm_compute in HH SHA256.
Lemma H256_ok : HH SHA256 = H256.
Proof. vm_cast_no_check (eq_refl H256). Qed.
Lemma H256_at m : consts m -> arr 4 m 0 H256.
Proof. intros H. apply consts_arr; [exact H|lia|cbn; lia|vm_compute; reflexivity]. Qed.

(** the padded length *)
Definition plen (len : Z) : Z := 64 * ((len + 8) / 64) + 64.
Lemma plen_pad len : 0 <= len -> plen len = len + 1 + (- (len + 9)) mod 64 + 8.
Proof.
  intros H. unfold plen. pose proof (Z.div_mod (len + 8) 64 ltac:(lia)) as H1. pose proof (Z.mod_pos_bound (len + 8) 64 ltac:(lia)).
  assert ((- (len + 9)) mod 64 = 63 - (len + 8) mod 64); [|lia].
  symmetry. apply Z.mod_unique with (q := - ((len + 8) / 64) - 1); lia.
Qed.

Lemma extend_data_wp sp data n st R :
  gget (sglob st) "stack-pointer" = Some (VI32 sp) -> 1352 <= sp -> 0 <= data -> Z.of_nat n < 2 ^ 29 ->
  data + Z.of_nat n <= msize (smem st) -> (data + Z.of_nat n <= sp \/ sp + 32 <= data) ->
  sp + 288 + plen (Z.of_nat n) <= msize (smem st) -> msize (smem st) <= m32 -> consts (smem st) ->
  (forall m', only_changes (smem st) m' sp (288 + plen (Z.of_nat n)) -> arr 4 m' sp H256 ->
     bytes_at m' (sp + 288) (Z.to_nat (plen (Z.of_nat n))) = sha2_pad SHA256 (bytes_at (smem st) data n) ->
     R (RVals [VI32 (plen (Z.of_nat n))] (with_mem st m'))) ->
  wpf E "extend-data" [VI32 data; VI32 (Z.of_nat n)] st R.
Proof.
  intros Hg H0 Hd Hn Hdm Hdis Hm Hm32 Hc HR. set (m := smem st) in *. set (len := Z.of_nat n) in *.
  change (2 ^ 29) with 536870912 in Hn.
  pose proof (plen_pad len ltac:(lia)) as HP. set (z := (- (len + 9)) mod 64) in *. assert (Hz : 0 <= z < 64) by (apply Z.mod_pos_bound; lia).
  assert (Hlor : (Z.lor ((len + 8) mod m32) 63 + 1) mod m32 = plen len).
  { rewrite (Z.mod_small (len + 8)) by lia. change 63 with (2 ^ 6 - 1). rewrite lor_fill by lia. change (2 ^ 6) with 64.
    fold (plen len). unfold plen in *. rewrite Z.mod_small by lia. lia. }
  set (B := plen len) in *. clearbody B.
  wenter HE. 
  apply wp_gget with (v := VI32 sp); [exact Hg|]. wpure. apply wp_memcopy; [msz; fold m; lia|msz; fold m; lia|]. 
  apply wp_gget with (v := VI32 sp); [exact Hg|]. wpure. rewrite (Z.mod_small (sp + 288)) by lia. apply wp_memcopy; [msz; fold m; lia|msz; fold m; lia|].
  wpure. rewrite Hlor. apply wp_gget with (v := VI32 sp); [exact Hg|]. wpure. rewrite (Z.mod_small (sp + len)) by lia.
  eapply wp_store; [reflexivity|msz; fold m; lia|]. wpure. apply wp_gget with (v := VI32 sp); [exact Hg|]. wpure.
  rewrite (Z.mod_small (sp + len)) by lia. rewrite (Z.mod_small (sp + len + 289)) by lia. rewrite (Z.mod_small (B - len)) by lia. rewrite (Z.mod_small (B - len - 8)) by lia.
  apply wp_memfill; [msz; fold m; lia|]. wpure. apply wp_gget with (v := VI32 sp); [exact Hg|]. wpure.
  rewrite (Z.mod_small (sp + B)) by lia. rewrite (Z.mod_small (sp + B - 8)) by lia. rewrite (Z.mod_small (len * 8)) by lia.
  eapply wp_store; [reflexivity|msz; fold m; lia|]. wpure. wnil.
  cbn [smem with_mem stbytes]. fold m. rewrite !with_mem_twice.
  set (m1 := mcopy m sp 0 32). set (m2 := mcopy m1 (sp + 288) data len). set (m3 := stn m2 (sp + len + 288) 4 128). set (m4 := mfill m3 (sp + len + 289) 0 (B - len - 8)).
  match goal with |- R (RVals _ (with_mem _ (stn m4 _ 8 ?v))) => assert (Hv : v = of_digits (be_bytes 8 (8 * len))) end.
  { rewrite <- swap64 by lia. replace (8 * len) with (len * 8) by lia. reflexivity. }
  rewrite Hv. rewrite stn_be by lia. replace (sp + B - 8 + 288) with (sp + 280 + B) by lia. set (m5 := write_bytes m4 _ _).
  assert (O1 : only_changes m m1 sp 32) by apply only_mcopy.
  assert (O2 : only_changes m1 m2 (sp + 288) len) by apply only_mcopy.
  assert (O3 : only_changes m2 m3 (sp + len + 288) 4) by apply only_stn.
  assert (O4 : only_changes m3 m4 (sp + len + 289) (B - len - 8)) by apply only_mfill.
  assert (O5 : only_changes m4 m5 (sp + 280 + B) 8) by (eapply only_weaken; [apply only_write| |]; rewrite ?len_be_bytes; lia).
  apply HR.
  - eapply only_trans; [eapply only_weaken; [exact O1|lia|lia]|]. eapply only_trans; [eapply only_weaken; [exact O2|lia|lia]|]. eapply only_trans; [eapply only_weaken; [exact O3|lia|lia]|].
    eapply only_trans; [eapply only_weaken; [exact O4|lia|lia]|]. eapply only_weaken; [exact O5|lia|lia].
  - pose proof (H256_at m Hc) as HA. eapply arr_only; [exact O5|cbn [length H256]; lia|]. eapply arr_only; [exact O4|cbn [length H256]; lia|].
    eapply arr_only; [exact O3|cbn [length H256]; lia|]. eapply arr_only; [exact O2|cbn [length H256]; lia|].
    intros i Hi. rewrite <- (HA i Hi). cbn [length H256] in Hi. unfold m1. 
    replace (sp + Z.of_nat 4 * Z.of_nat i) with (sp + (4 * Z.of_nat i)) by lia. change (0 + Z.of_nat 4 * Z.of_nat i) with (Z.of_nat 4 * Z.of_nat i). change (Z.of_nat 4) with 4.
    apply ldn_copy; lia.
  - replace (Z.to_nat B) with (n + (1 + (Z.to_nat z + 8)))%nat by lia.
    rewrite bytes_at_app. rewrite bytes_at_app. rewrite bytes_at_app.
    unfold sha2_pad. rewrite length_bytes_at. change (bits SHA256 / 8) with 4. change (2 * wbytes SHA256)%nat with 8%nat. change (16 * 4) with 64. change (2 * 4) with 8.
    fold len. replace (- (len + 1 + 8)) with (- (len + 9)) by lia. fold z.
    f_equal; [|f_equal; [|f_equal]].
    + rewrite (only_bytes _ _ _ _ _ _ O5) by lia. rewrite (only_bytes _ _ _ _ _ _ O4) by lia. rewrite (only_bytes _ _ _ _ _ _ O3) by lia.
      unfold m2, len. rewrite bytes_at_mcopy_same. apply (only_bytes _ _ _ _ _ _ O1). lia.
    + rewrite (only_bytes _ _ _ _ _ _ O5) by lia. rewrite (only_bytes _ _ _ _ _ _ O4) by lia. cbn [bytes_at]. f_equal. unfold m3.
      replace (sp + 288 + len) with (sp + len + 288 + 0) by lia. rewrite rd_stn. change (Z.of_nat 4) with 4.
      replace ((sp + len + 288 <=? sp + len + 288 + 0) && (sp + len + 288 + 0 <? sp + len + 288 + 4))%bool with true by (symmetry; apply andb_true_intro; split; [apply Z.leb_le|apply Z.ltb_lt]; lia).
      replace (sp + len + 288 + 0 - (sp + len + 288)) with 0 by lia. reflexivity.
    + rewrite (only_bytes _ _ _ _ _ _ O5) by lia. unfold m4. replace (B - len - 8) with (Z.of_nat (Z.to_nat z + 1)) by lia.
      replace (sp + 288 + len + Z.of_nat 1) with (sp + len + 289) by lia.
      rewrite <- (firstn_bytes _ _ (Z.to_nat z + 1) (Z.to_nat z)) by lia. rewrite bytes_at_mfill, repeat_app, firstn_app, repeat_length, Nat.sub_diag, firstn_O, app_nil_r.
      apply firstn_all2. rewrite repeat_length. lia.
    + replace (sp + 288 + len + Z.of_nat 1 + Z.of_nat (Z.to_nat z)) with (sp + 280 + B) by lia.
      pose proof (bytes_at_write (be_bytes 8 (8 * len)) m4 (sp + 280 + B) (be_bytes_byte _ _)) as HW. rewrite len_be_bytes in HW. exact HW.
Qed.

Lemma round_len s v kw : length v = 8%nat -> length (sha2_round s v kw) = 8%nat.
Proof. intros H. do 9 (destruct v as [|? v]; try discriminate H). reflexivity. Qed.
Lemma rounds_len s kws : forall v, length v = 8%nat -> length (fold_left (sha2_round s) kws v) = 8%nat.
Proof. induction kws as [|k kws IH]; intros v H; [exact H|]. cbn [fold_left]. apply IH, round_len, H. Qed.
Lemma compress_len s h b : length h = 8%nat -> length (sha2_compress s h b) = 8%nat.
Proof. intros H. unfold sha2_compress. rewrite map_length, combine_length, rounds_len, H by exact H. reflexivity. Qed.
Lemma state_len s bs : forall h, length h = 8%nat -> length (fold_left (sha2_compress s) bs h) = 8%nat.
Proof. induction bs as [|b bs IH]; intros h H; [exact H|]. cbn [fold_left]. apply IH, compress_len, H. Qed.

(** one block: [block64], then [working-vars] *)
Lemma block_step is sp i h ls k st (Q : outcome HS -> Prop) :
  gget (sglob st) "stack-pointer" = Some (VI32 sp) -> 1352 <= sp -> 0 <= i -> sp + 288 + i + 64 <= msize (smem st) -> msize (smem st) <= m32 ->
  consts (smem st) -> length h = 8%nat -> arr 4 (smem st) sp h ->
  (forall m', only_changes (smem st) m' sp 288 -> arr 4 m' sp (sha2_compress SHA256 h (bytes_at (smem st) (sp + 288 + i) 64)) ->
     wp E is (mkcfg ls k (with_mem st m')) Q) ->
  wp E (Call "block64" :: Call "working-vars" :: is) (mkcfg ls (VI32 i :: k) st) Q.
Proof.
  intros Hg H0 Hi Hm Hm32 Hc Hh HA HR.
  wcall HE. apply block64_wp with (sp := sp); [exact HE|exact Hg|lia|exact Hi|exact Hm|exact Hm32|]. intros m1 O1 A1. wfin.
  pose proof O1 as (Hs & _).
  wcall HE. eapply working_vars_wp with (sp := sp); [exact HE|exact Hg|exact H0| | | |exact Hh| | |exact A1|]; cbn [smem with_mem] in *.
  - lia.
  - lia.
  - eapply consts_only; [exact O1|lia|exact Hc].
  - rewrite schedule_len, ws0_len. reflexivity.
  - eapply arr_only; [exact O1|rewrite Hh; lia|exact HA].
  - intros m2 O2 A2. wfin. rewrite with_mem_twice. apply HR.
    + eapply only_trans; [eapply only_weaken; [exact O1|lia|lia]|]. eapply only_weaken; [exact O2|lia|lia].
    + unfold sha2_compress. rewrite K256_ok. change (length K256 - 16)%nat with 48%nat. exact A2.
Qed.

Lemma swizzle2_rd m a r n : (a + 32 <= r \/ r + 32 <= a) -> n = 0 \/ n = 1 -> forall i, 0 <= i < 16 * (n + 1) ->
  rd (if n =? 0 then stn m r 16 (swizzle (ldn m a 16) C4) else stn (stn m r 16 (swizzle (ldn m a 16) C4)) (r + 16) 16 (swizzle (ldn (stn m r 16 (swizzle (ldn m a 16) C4)) (a + 16) 16) C4)) (r + i) = rd m (a + swap 4 i).
Proof.
  intros Hd Hn.
  assert (H0 : forall i, 0 <= i < 16 -> rd (stn m r 16 (swizzle (ldn m a 16) C4)) (r + i) = rd m (a + swap 4 i)).
  { intros i Hi. apply (swizzle_rd m a r C4 (swap 4) i swap4_const Hi). }
  destruct Hn as [-> | ->]; [exact H0|]. cbn [Z.eqb]. intros i Hi. set (m1 := stn m r 16 _) in *.
  destruct (Z_lt_ge_dec i 16).
  - rewrite rd_stn_other by lia. apply H0. lia.
  - replace (r + i) with (r + 16 + (i - 16)) by lia. rewrite (swizzle_rd m1 (a + 16) (r + 16) C4 (swap 4) (i - 16) swap4_const) by lia.
    assert (Hsw : swap 4 i = 16 + swap 4 (i - 16)) by (unfold swap; zlia). assert (0 <= swap 4 (i - 16) < 16) by (unfold swap; zlia).
    unfold m1. rewrite rd_stn_other by lia. f_equal. lia.
Qed.

(** writing the digest out *)
Lemma digest_out_wp is sp r x h ls k st (Q : outcome HS -> Prop) :
  gget (sglob st) "stack-pointer" = Some (VI32 sp) -> nth_error ls x = Some (VI32 r) -> 0 <= sp -> 0 <= r -> sp + 32 <= msize (smem st) -> r + 32 <= msize (smem st) -> msize (smem st) <= m32 ->
  (r + 32 <= sp \/ sp + 32 <= r) -> length h = 8%nat -> arr 4 (smem st) sp h ->
  (forall m', only_changes (smem st) m' r 32 -> bytes_at m' r 32 = flat_map (be_bytes 4) h -> wp E is (mkcfg ls k (with_mem st m')) Q) ->
  wp E (LGet x :: GGet "stack-pointer" :: Load LV128 0 :: Const (VV128 16018520953223639909183530438118932995) :: VSwizzle :: Store SV128 0 :: LGet x ::
        GGet "stack-pointer" :: Load LV128 16 :: Const (VV128 16018520953223639909183530438118932995) :: VSwizzle :: Store SV128 16 :: is) (mkcfg ls k st) Q.
Proof.
  intros Hg Hx H0 Hr Hm Hrm Hm32 Hd Hh HA HR. set (m := smem st) in *. fold C4.
  assert (Hlget : forall is' k' st', wp E is' (mkcfg ls (VI32 r :: k') st') Q -> wp E (LGet x :: is') (mkcfg ls k' st') Q).
  { intros is' k' st' H. eapply wp_step1; [reflexivity| |exact H]. cbn. rewrite Hx. reflexivity. }
  apply Hlget. apply wp_gget with (v := VI32 sp); [exact Hg|]. apply wp_load; [msz; fold m; lia|]. wpure. eapply wp_store; [reflexivity|msz; fold m; lia|].
  apply Hlget. apply wp_gget with (v := VI32 sp); [exact Hg|]. apply wp_load; [msz; fold m; lia|]. wpure. eapply wp_store; [reflexivity|msz; fold m; lia|].
  cbn [smem with_mem ldbytes stbytes]. fold m. rewrite with_mem_twice, !Z.add_0_r. apply HR.
  - eapply only_trans; eapply only_weaken; try apply only_stn; lia.
  - replace 32%nat with (4 * length h)%nat by lia. apply (be_digest4 m _ sp). 1: exact HA. intros i Hi. apply (swizzle2_rd m sp r 1); lia.
Qed.

Lemma sha256_buf_wp sp data n r st R :
  gget (sglob st) "stack-pointer" = Some (VI32 sp) -> 1352 <= sp -> 0 <= data -> 0 <= r -> Z.of_nat n < 2 ^ 29 ->
  data + Z.of_nat n <= msize (smem st) -> r + 32 <= msize (smem st) -> (data + Z.of_nat n <= sp \/ sp + 32 <= data) -> (r + 32 <= sp \/ sp + 32 <= r) ->
  sp + 288 + plen (Z.of_nat n) <= msize (smem st) -> msize (smem st) <= m32 -> consts (smem st) ->
  (forall m', msize m' = msize (smem st) ->
     (forall x, x < sp \/ sp + 288 + plen (Z.of_nat n) <= x -> x < r \/ r + 32 <= x -> rd m' x = rd (smem st) x) ->
     bytes_at m' r 32 = sha256 (bytes_at (smem st) data n) -> R (RVals [VI32 r; VI32 32] (with_mem st m'))) ->
  wpf E "stdlib.sha256-buf" [VI32 data; VI32 (Z.of_nat n); VI32 r] st R.
Proof.
  intros Hg H0 Hd Hr Hn Hdm Hrm Hdis Hrd Hm Hm32 Hc HR. set (m := smem st) in *. set (msg := bytes_at m data n) in *.
  assert (HB : exists nb, plen (Z.of_nat n) = 64 * Z.of_nat nb /\ (1 <= nb)%nat).
  { exists (Z.to_nat ((Z.of_nat n + 8) / 64 + 1)). pose proof (Z.div_pos (Z.of_nat n + 8) 64 ltac:(lia) ltac:(lia)). split; [unfold plen|]; lia. }
  destruct HB as (nb & HB & Hnb).
  wenter HE. wpure. wcall HE. apply extend_data_wp with (sp := sp); auto. intros m1 O1 A1 P1. wfin. rewrite HB in *. wpure.
  set (blocks := pieces 64 (sha2_pad SHA256 msg)).
  assert (Hbl : length blocks = nb).
  { unfold blocks. rewrite pieces_len. fold m msg in P1. rewrite <- P1, length_bytes_at. replace (Z.to_nat (64 * Z.of_nat nb)) with (nb * 64)%nat by lia. apply Nat.div_mul. lia. }
  eapply wp_loop0 with (z := Z.of_nat nb) (I := fun z s => exists m2 j, z = Z.of_nat nb - Z.of_nat j /\ (j < nb)%nat /\
     s = mkcfg [VI32 data; VI32 (64 * Z.of_nat nb); VI32 r; VI32 (64 * Z.of_nat j)] [] (with_mem st m2) /\
     only_changes m m2 sp (288 + 64 * Z.of_nat nb) /\ arr 4 m2 sp (fold_left (sha2_compress SHA256) (firstn j blocks) H256) /\
     bytes_at m2 (sp + 288) (Z.to_nat (64 * Z.of_nat nb)) = sha2_pad SHA256 msg).
  - lia.
  - exists m1, 0%nat. split; [lia|]. split; [lia|]. split; [reflexivity|]. split; [exact O1|]. split; [exact A1|exact P1].
  - intros z ls st' Hz (m2 & j & -> & Hj & Hcf & O2 & A2 & P2). apply cfg_inj in Hcf as (-> & ->). pose proof O2 as (Hs2 & _).
    wpure. apply block_step with (sp := sp) (h := fold_left (sha2_compress SHA256) (firstn j blocks) H256); cbn [smem with_mem]; auto; try lia.
    + eapply consts_only; [exact O2|lia|exact Hc].
    + apply state_len. reflexivity.
    + intros m3 O3 A3.
      assert (Hblk : bytes_at m2 (sp + 288 + 64 * Z.of_nat j) 64 = nth j blocks []).
      { symmetry. apply nth_error_nth. unfold blocks. rewrite pieces_nth.
        - rewrite <- P2, piece_bytes by lia. do 2 f_equal. lia.
        - rewrite <- pieces_len. fold blocks. lia. }
      rewrite Hblk, <- fold_firstn in A3 by lia. rewrite with_mem_twice.
      assert (O3' : only_changes m m3 sp (288 + 64 * Z.of_nat nb)) by (eapply only_trans; [exact O2|]; eapply only_weaken; [exact O3|lia|lia]).
      wpure. rewrite (Z.mod_small (64 * Z.of_nat j + 64)) by lia. wbrif Hq.
      * apply Z.ltb_ge in Hq. assert (S j = nb) as <- by lia. wnil. wfin. rewrite firstn_all2 in A3 by lia.
        pose proof O3' as (Hs3 & Hr3).
        apply digest_out_wp with (sp := sp) (r := r) (h := fold_left (sha2_compress SHA256) blocks H256); cbn [smem with_mem cstore clocals]; auto; try lia.
        -- apply state_len. reflexivity.
        -- intros m4 (Hs4 & Hr4) D4. wpure. wnil. rewrite with_mem_twice. apply HR.
           ++ congruence.
           ++ intros x Hx1 Hx2. rewrite Hr4 by lia. apply Hr3. lia.
           ++ rewrite D4. unfold sha256, sha2_hash, sha2_state. rewrite H256_ok. reflexivity.
      * apply Z.ltb_lt in Hq. wfin. exists (Z.of_nat nb - Z.of_nat (S j)). split; [lia|]. exists m3, (S j). split; [lia|]. split; [lia|].
        replace (64 * Z.of_nat (S j)) with (64 * Z.of_nat j + 64) by lia. split; [reflexivity|]. split; [exact O3'|]. split; [exact A3|].
        rewrite (only_bytes _ _ _ _ _ _ O3) by lia. exact P2.
Qed.

Lemma pieces_one {A} n (l : list A) : (0 < n)%nat -> length l = n -> pieces n l = [l].
Proof.
  intros Hn Hl. unfold pieces. rewrite Hl, Nat.div_same by lia. cbn [seq map]. rewrite Nat.mul_0_r. cbn [skipn]. rewrite firstn_all2 by lia. reflexivity.
Qed.
Lemma bytes_at_stn_le m a n v : bytes_at (stn m a n v) a n = le_bytes n v.
Proof. rewrite stn_write. rewrite <- (len_le_bytes n v) at 2. apply bytes_at_write. apply le_bytes_byte. Qed.

Definition int_bytes (lo hi : Z) : list Z := le_bytes 8 lo ++ le_bytes 8 hi.

Lemma sha256_int_wp sp lo hi r st R :
  gget (sglob st) "stack-pointer" = Some (VI32 sp) -> 1352 <= sp -> 0 <= r -> r + 32 <= msize (smem st) -> (r + 32 <= sp \/ sp + 32 <= r) ->
  sp + 354 <= msize (smem st) -> msize (smem st) <= m32 -> consts (smem st) ->
  (forall m', msize m' = msize (smem st) -> (forall x, x < sp \/ sp + 354 <= x -> x < r \/ r + 32 <= x -> rd m' x = rd (smem st) x) ->
     bytes_at m' r 32 = sha256 (int_bytes lo hi) -> R (RVals [VI32 r; VI32 32] (with_mem st m'))) ->
  wpf E "stdlib.sha256-int" [VI64 lo; VI64 hi; VI32 r] st R.
Proof.
  intros Hg H0 Hr Hrm Hrd Hm Hm32 Hc HR. set (m := smem st) in *. wenter HE.
  apply wp_gget with (v := VI32 sp); [exact Hg|]. wpure. apply wp_memcopy; [msz; fold m; lia|msz; fold m; lia|].
  apply wp_gget with (v := VI32 sp); [exact Hg|]. wpure. eapply wp_store; [reflexivity|msz; fold m; lia|].
  apply wp_gget with (v := VI32 sp); [exact Hg|]. wpure. eapply wp_store; [reflexivity|msz; fold m; lia|].
  apply wp_gget with (v := VI32 sp); [exact Hg|]. wpure. eapply wp_store; [reflexivity|msz; fold m; lia|].
  apply wp_gget with (v := VI32 sp); [exact Hg|]. wpure. rewrite (Z.mod_small (sp + 308)) by lia. apply wp_memfill; [msz; fold m; lia|].
  apply wp_gget with (v := VI32 sp); [exact Hg|]. wpure. eapply wp_store; [reflexivity|msz; fold m; lia|].
  cbn [smem with_mem stbytes]. fold m. rewrite !with_mem_twice. wpure.
  set (m1 := mcopy m sp 0 32). set (m2 := stn m1 (sp + 288) 8 lo). set (m3 := stn m2 (sp + 296) 8 hi). set (m4 := stn m3 (sp + 304) 4 128).
  set (m5 := mfill m4 (sp + 308) 0 46). set (m6 := stn m5 (sp + 351) 1 128).
  assert (O1 : only_changes m m1 sp 32) by apply only_mcopy. assert (O2 : only_changes m1 m2 (sp + 288) 8) by apply only_stn.
  assert (O3 : only_changes m2 m3 (sp + 296) 8) by apply only_stn. assert (O4 : only_changes m3 m4 (sp + 304) 4) by apply only_stn.
  assert (O5 : only_changes m4 m5 (sp + 308) 46) by apply only_mfill. assert (O6 : only_changes m5 m6 (sp + 351) 1) by apply only_stn.
  assert (A6 : arr 4 m6 sp H256).
  { pose proof (H256_at m Hc) as HA. eapply arr_only; [exact O6|cbn [length H256]; lia|]. eapply arr_only; [exact O5|cbn [length H256]; lia|]. eapply arr_only; [exact O4|cbn [length H256]; lia|].
    eapply arr_only; [exact O3|cbn [length H256]; lia|]. eapply arr_only; [exact O2|cbn [length H256]; lia|].
    intros i Hi. rewrite <- (HA i Hi). cbn [length H256] in Hi. unfold m1. change (0 + Z.of_nat 4 * Z.of_nat i) with (0 + (Z.of_nat 4 * Z.of_nat i)). apply ldn_copy; lia. }
  assert (P6 : bytes_at m6 (sp + 288) 64 = sha2_pad SHA256 (int_bytes lo hi)).
  { transitivity (le_bytes 8 lo ++ le_bytes 8 hi ++ [128; 0; 0; 0] ++ repeat 0 43 ++ [128]).
    - change 64%nat with (8 + (8 + (4 + (43 + 1))))%nat. rewrite !bytes_at_app. change (Z.of_nat 8) with 8. change (Z.of_nat 4) with 4. change (Z.of_nat 43) with 43.
      replace (sp + 288 + 8) with (sp + 296) by lia. replace (sp + 296 + 8) with (sp + 304) by lia. replace (sp + 304 + 4) with (sp + 308) by lia. replace (sp + 308 + 43) with (sp + 351) by lia.
      f_equal; [|f_equal; [|f_equal; [|f_equal]]].
      + rewrite (only_bytes _ _ _ _ _ _ O6), (only_bytes _ _ _ _ _ _ O5), (only_bytes _ _ _ _ _ _ O4), (only_bytes _ _ _ _ _ _ O3) by lia. apply bytes_at_stn_le.
      + rewrite (only_bytes _ _ _ _ _ _ O6), (only_bytes _ _ _ _ _ _ O5), (only_bytes _ _ _ _ _ _ O4) by lia. apply bytes_at_stn_le.
      + rewrite (only_bytes _ _ _ _ _ _ O6), (only_bytes _ _ _ _ _ _ O5) by lia. unfold m4. rewrite bytes_at_stn_le. reflexivity.
      + rewrite (only_bytes _ _ _ _ _ _ O6) by lia. rewrite <- (firstn_bytes _ _ 46 43) by lia. unfold m5. change 46 with (Z.of_nat 46). rewrite bytes_at_mfill. reflexivity.
      + unfold m6. rewrite bytes_at_stn_le. reflexivity.
    - unfold sha2_pad, int_bytes. rewrite app_length, !len_le_bytes, <- app_assoc. do 2 f_equal; reflexivity. }
  assert (OA : only_changes m m6 sp 354).
  { eapply only_trans; [eapply only_weaken; [exact O1|lia|lia]|]. eapply only_trans; [eapply only_weaken; [exact O2|lia|lia]|]. eapply only_trans; [eapply only_weaken; [exact O3|lia|lia]|].
    eapply only_trans; [eapply only_weaken; [exact O4|lia|lia]|]. eapply only_trans; [eapply only_weaken; [exact O5|lia|lia]|]. eapply only_weaken; [exact O6|lia|lia]. }
  clearbody m6. clear O1 O2 O3 O4 O5 O6. pose proof OA as (Hs6 & _).
  apply block_step with (sp := sp) (h := H256); cbn [smem with_mem]; auto; try lia.
  - eapply consts_only; [exact OA|lia|exact Hc].
  - intros m7 O7 A7. rewrite Z.add_0_r, P6, with_mem_twice in *.
    assert (O7' : only_changes m m7 sp 354) by (eapply only_trans; [exact OA|]; eapply only_weaken; [exact O7|lia|lia]). pose proof O7' as (Hs7 & Hr7).
    eapply digest_out_wp with (sp := sp) (r := r) (h := sha2_compress SHA256 H256 (sha2_pad SHA256 (int_bytes lo hi)));
      [exact Hg|reflexivity|lia|exact Hr|cbn [smem with_mem]; lia|cbn [smem with_mem]; lia|cbn [smem with_mem]; lia|exact Hrd|apply compress_len; reflexivity|exact A7|].
    + intros m8 (Hs8 & Hr8) D8. wpure. wnil. rewrite with_mem_twice. apply HR; [etransitivity; [exact Hs8|exact Hs7]| |].
      * intros x Hx1 Hx2. rewrite Hr8 by lia. apply Hr7. lia.
      * rewrite D8. unfold sha256, sha2_hash, sha2_state. rewrite H256_ok. change (16 * wbytes SHA256)%nat with 64%nat. rewrite (pieces_one 64 (sha2_pad SHA256 (int_bytes lo hi))); [|lia|].
        { cbn [fold_left]. change (wbytes SHA256) with 4%nat. reflexivity. }
        rewrite <- P6. apply length_bytes_at.
Qed.
End Sha256.
