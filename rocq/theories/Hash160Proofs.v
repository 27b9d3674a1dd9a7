(** * The standard library's hash160, continued (proof support) *)
From Coq Require Import ZArith String List Bool Lia.
Import ListNotations.
From Verif Require Import Wasm Std StdEnv WasmLogic WasmTac Spec SpecBytes Mem MemFacts Bytes ConvProofs ArithProofs BeProofs SpecHash HashFacts Sha256Proofs Sha256Main Rmd160Proofs.
Open Scope string_scope.
Open Scope list_scope.
Open Scope Z_scope.

Lemma gget_gset (g : globals) n v w : gget g n = Some w -> gget (gset g n v) n = Some v.
Proof. induction g as [|[k x] g IH]; cbn; [discriminate|]. destruct (String.eqb k n) eqn:E; cbn; rewrite E; [reflexivity|exact IH]. Qed.
Lemma gset_gset (g : globals) n v w : gset (gset g n v) n w = gset g n w.
Proof. induction g as [|[k x] g IH]; cbn; [reflexivity|]. destruct (String.eqb k n) eqn:E; cbn; rewrite E; [reflexivity|f_equal; exact IH]. Qed.
Lemma gset_same (g : globals) n v : gget g n = Some v -> gset g n v = g.
Proof. induction g as [|[k x] g IH]; cbn; [discriminate|]. destruct (String.eqb k n) eqn:E; intros H; [congruence|f_equal; auto]. Qed.

Lemma le_digest b m a ws : arr b m a ws -> bytes_at m a (b * length ws) = flat_map (le_bytes b) ws.
Proof.
  revert a. induction ws as [|w ws IH]; intros a HA; [rewrite Nat.mul_0_r; reflexivity|].
  cbn [length flat_map]. replace (b * S (length ws))%nat with (b + b * length ws)%nat by lia. rewrite bytes_at_app. f_equal.
  - rewrite <- le_bytes_ldn. f_equal. pose proof (HA 0%nat ltac:(cbn; lia)) as H. cbn [nth] in H. rewrite <- H. f_equal. lia.
  - apply IH. intros i Hi. pose proof (HA (S i) ltac:(cbn; lia)) as H. cbn [nth] in H. rewrite <- H. f_equal. lia.
Qed.

Section Hash160.
Context {HS : Type} (E : env HS) (HE : has_std E).
Implicit Types (st : store HS) (R : result HS -> Prop).
Ltac wfin := unfold qcall, qblock, qfunc; wcbn.
Ltac msz := cbn [smem with_mem with_glob msize stn upd mcopy mfill ldbytes stbytes]; rewrite ?msize_stn, ?msize_mcopy, ?msize_mfill.

Lemma with_glob_mem st g m : with_glob (with_mem st m) g = with_mem (with_glob st g) m.
Proof. reflexivity. Qed.

Lemma pad160_wp sp msg st R : gget (sglob st) "stack-pointer" = Some (VI32 sp) -> 1352 <= sp -> sp + 64 <= msize (smem st) -> msize (smem st) <= m32 ->
  length msg = 32%nat -> bytes_at (smem st) sp 32 = msg ->
  (forall m', only_changes (smem st) m' (sp + 32) 32 -> bytes_at m' sp 64 = rmd_pad msg -> R (RVals [] (with_mem st m'))) ->
  wpf E "hash160-pad" [] st R.
Proof.
  intros Hg H0 Hm Hm32 Hl Hb HR. set (m := smem st) in *. wenter HE.
  apply wp_gget with (v := VI32 sp); [exact Hg|]. wpure. eapply wp_store; [reflexivity|msz; fold m; lia|].
  apply wp_gget with (v := VI32 sp); [exact Hg|]. wpure. rewrite (Z.mod_small (sp + 40)) by lia. apply wp_memfill; [msz; fold m; lia|].
  apply wp_gget with (v := VI32 sp); [exact Hg|]. wpure. eapply wp_store; [reflexivity|msz; fold m; lia|]. wnil.
  cbn [smem with_mem stbytes]. fold m. rewrite !with_mem_twice.
  set (m1 := stn m (sp + 32) 8 128). set (m2 := mfill m1 (sp + 40) 0 16). set (m3 := stn m2 (sp + 56) 8 256).
  assert (O1 : only_changes m m1 (sp + 32) 8) by apply only_stn. assert (O2 : only_changes m1 m2 (sp + 40) 16) by apply only_mfill.
  assert (O3 : only_changes m2 m3 (sp + 56) 8) by apply only_stn.
  apply HR.
  - eapply only_trans; [eapply only_weaken; [exact O1|lia|lia]|]. eapply only_trans; [eapply only_weaken; [exact O2|lia|lia]|]. eapply only_weaken; [exact O3|lia|lia].
  - change 64%nat with (32 + (8 + (16 + 8)))%nat. rewrite !bytes_at_app. change (Z.of_nat 32) with 32. change (Z.of_nat 16) with 16. change (Z.of_nat 8) with 8.
    replace (sp + 32 + 8) with (sp + 40) by lia. replace (sp + 40 + 16) with (sp + 56) by lia.
    transitivity (msg ++ le_bytes 8 128 ++ repeat 0 16 ++ le_bytes 8 256).
    + f_equal; [|f_equal; [|f_equal]].
      * rewrite (only_bytes _ _ _ _ _ _ O3), (only_bytes _ _ _ _ _ _ O2), (only_bytes _ _ _ _ _ _ O1) by lia. exact Hb.
      * rewrite (only_bytes _ _ _ _ _ _ O3), (only_bytes _ _ _ _ _ _ O2) by lia. apply bytes_at_stn_le.
      * rewrite (only_bytes _ _ _ _ _ _ O3) by lia. apply (bytes_at_mfill m1 (sp + 40) 16).
      * apply bytes_at_stn_le.
    + unfold rmd_pad. rewrite Hl. reflexivity.
Qed.

(** what follows the inner digest: padding, compression, result *)
Lemma tail160 is sp r x msg ls k st (Q : outcome HS -> Prop) :
  gget (sglob st) "stack-pointer" = Some (VI32 sp) -> nth_error ls x = Some (VI32 r) -> 1352 <= sp -> sp + 64 <= msize (smem st) -> 0 <= r -> r + 20 <= msize (smem st) -> msize (smem st) <= m32 ->
  consts (smem st) -> length msg = 32%nat -> bytes_at (smem st) sp 32 = msg ->
  (forall m', msize m' = msize (smem st) -> (forall y, y < sp \/ sp + 64 <= y -> y < r \/ r + 20 <= y -> rd m' y = rd (smem st) y) ->
     bytes_at m' r 20 = ripemd160 msg -> wp E is (mkcfg ls k (with_mem st m')) Q) ->
  wp E (Call "hash160-pad" :: LGet x :: Call "hash160-compress" :: is) (mkcfg ls k st) Q.
Proof.
  intros Hg Hx H0 Hm Hr Hrm Hm32 Hc Hl Hb HR. set (m := smem st) in *.
  wcall HE. eapply pad160_wp with (sp := sp); [exact Hg|exact H0|exact Hm|exact Hm32|exact Hl|exact Hb|]. intros m1 O1 P1. wfin. pose proof O1 as (Hs1 & Hr1). change (msize m1 = msize m) in Hs1.
  eapply wp_step1 with (s' := mkcfg ls (VI32 r :: k) (with_mem st m1)); [reflexivity|cbn; rewrite Hx; reflexivity|].
  set (X := map le_value (pieces 4 (rmd_pad msg))).
  assert (HXl : length X = 16%nat). { unfold X. rewrite map_length, pieces_len, <- P1, length_bytes_at. reflexivity. }
  wcall HE. eapply compress_wp with (sp := sp) (X := X); [exact HE|exact Hg|exact H0| |exact Hr| | | |exact HXl| |]; cbn [smem with_mem] in *.
  - lia.
  - lia.
  - lia.
  - eapply consts_only; [exact O1|lia|exact Hc].
  - intros i Hi. rewrite HXl in Hi. unfold X. erewrite (nth_error_nth (map le_value _)); [reflexivity|]. rewrite nth_error_map, pieces_nth by (rewrite <- P1, length_bytes_at; exact Hi).
    cbn [option_map]. rewrite <- P1, piece_bytes by lia. rewrite le_value_eq, <- ldn_le. do 2 f_equal. lia.
  - intros m2 (Hs2 & Hr2) A2. wfin. rewrite with_mem_twice. apply HR.
    + congruence.
    + intros y Hy1 Hy2. rewrite Hr2 by lia. apply Hr1. lia.
    + apply le_digest in A2. assert (HL5 : length (rmd_compress rmd_H X) = 5%nat).
      { clear. unfold rmd_compress, rmd_H.
        assert (HF : forall F, (forall v j, length v = 5%nat -> length (F v j) = 5%nat) -> forall l v, length v = 5%nat -> length (@fold_left (list Z) nat F l v) = 5%nat).
        { intros F HF. induction l as [|j l IH]; intros v Hv; [exact Hv|]. cbn [fold_left]. apply IH, HF, Hv. }
        assert (Hst : forall f k x n v, length v = 5%nat -> length (rmd_step f k x n v) = 5%nat).
        { intros f k x n v Hv. do 6 (destruct v as [|? v]; try discriminate Hv). reflexivity. }
        pose proof (HF (rmd_left X) ltac:(intros; apply Hst; assumption) (seq 0 80) [1732584193; 4023233417; 2562383102; 271733878; 3285377520] eq_refl) as H1.
        pose proof (HF (rmd_right X) ltac:(intros; apply Hst; assumption) (seq 0 80) [1732584193; 4023233417; 2562383102; 271733878; 3285377520] eq_refl) as H2.
        destruct (fold_left (rmd_left X) _ _) as [|? [|? [|? [|? [|? []]]]]]; try discriminate H1.
        destruct (fold_left (rmd_right X) _ _) as [|? [|? [|? [|? [|? []]]]]]; try discriminate H2. reflexivity. }
      rewrite HL5 in A2. change (4 * 5)%nat with 20%nat in A2. rewrite A2. unfold ripemd160. rewrite (pieces_one 64 (rmd_pad msg)); [cbn [map fold_left]; fold X; reflexivity|lia|rewrite <- P1; apply length_bytes_at].
Qed.

Lemma hash160_buf_wp sp data n r st R :
  gget (sglob st) "stack-pointer" = Some (VI32 sp) -> 1352 <= sp -> 0 <= data -> 0 <= r -> Z.of_nat n < 2 ^ 29 ->
  data + Z.of_nat n <= msize (smem st) -> r + 20 <= msize (smem st) -> (data + Z.of_nat n <= sp + 32 \/ sp + 64 <= data) ->
  sp + 320 + plen (Z.of_nat n) <= msize (smem st) -> msize (smem st) <= m32 -> consts (smem st) ->
  (forall m', msize m' = msize (smem st) ->
     (forall x, x < sp \/ sp + 320 + plen (Z.of_nat n) <= x -> x < r \/ r + 20 <= x -> rd m' x = rd (smem st) x) ->
     bytes_at m' r 20 = hash160 (bytes_at (smem st) data n) -> R (RVals [VI32 r; VI32 20] (with_mem st m'))) ->
  wpf E "stdlib.hash160-buf" [VI32 data; VI32 (Z.of_nat n); VI32 r] st R.
Proof.
  intros Hg H0 Hd Hr Hn Hdm Hrm Hdis Hm Hm32 Hc HR. 
  assert (Hpl : 64 <= plen (Z.of_nat n)) by (unfold plen; pose proof (Z.div_pos (Z.of_nat n + 8) 64 ltac:(lia) ltac:(lia)); lia).
  wenter HE. apply wp_gget with (v := VI32 sp); [exact Hg|]. wpure. rewrite (Z.mod_small (sp + 32)) by lia. apply wp_gset. wpure. wcall HE.
  apply sha256_buf_wp with (sp := sp + 32); cbn [smem sglob with_glob]; auto; try lia.
  { eapply gget_gset. exact Hg. }
  intros m1 Hs1 Hr1 D1. wfin. wpure. apply wp_gset. cbn [sglob with_mem with_glob]. rewrite gset_gset, (gset_same _ _ _ Hg).
  change (with_glob (with_mem (with_glob st (gset (sglob st) "stack-pointer" (VI32 (sp + 32)))) m1) (sglob st)) with (with_mem (with_glob st (sglob st)) m1).
  replace (with_glob st (sglob st)) with st by (destruct st; reflexivity).
  eapply tail160 with (sp := sp) (r := r); [exact Hg|reflexivity|exact H0| |exact Hr| | | | |exact D1|]; cbn [smem with_mem]; try lia.
  - intros x Hx. rewrite Hr1 by lia. apply Hc. exact Hx.
  - rewrite <- D1. apply length_bytes_at.
  - intros m2 Hs2 Hr2 D2. wpure. wnil. rewrite with_mem_twice. apply HR.
    + congruence.
    + intros x Hx1 Hx2. rewrite Hr2 by lia. apply Hr1; lia.
    + exact D2.
Qed.

Lemma hash160_int_wp sp lo hi r st R :
  gget (sglob st) "stack-pointer" = Some (VI32 sp) -> 1352 <= sp -> 0 <= r -> r + 20 <= msize (smem st) ->
  sp + 386 <= msize (smem st) -> msize (smem st) <= m32 -> consts (smem st) ->
  (forall m', msize m' = msize (smem st) -> (forall x, x < sp \/ sp + 386 <= x -> x < r \/ r + 20 <= x -> rd m' x = rd (smem st) x) ->
     bytes_at m' r 20 = hash160 (int_bytes lo hi) -> R (RVals [VI32 r; VI32 20] (with_mem st m'))) ->
  wpf E "stdlib.hash160-int" [VI64 lo; VI64 hi; VI32 r] st R.
Proof.
  intros Hg H0 Hr Hrm Hm Hm32 Hc HR. 
  wenter HE. apply wp_gget with (v := VI32 sp); [exact Hg|]. wpure. rewrite (Z.mod_small (sp + 32)) by lia. apply wp_gset. wpure. wcall HE.
  apply sha256_int_wp with (sp := sp + 32); cbn [smem sglob with_glob]; auto; try lia.
  { eapply gget_gset. exact Hg. }
  intros m1 Hs1 Hr1 D1. wfin. wpure. apply wp_gset. cbn [sglob with_mem with_glob]. rewrite gset_gset, (gset_same _ _ _ Hg).
  change (with_glob (with_mem (with_glob st (gset (sglob st) "stack-pointer" (VI32 (sp + 32)))) m1) (sglob st)) with (with_mem (with_glob st (sglob st)) m1).
  replace (with_glob st (sglob st)) with st by (destruct st; reflexivity).
  eapply tail160 with (sp := sp) (r := r); [exact Hg|reflexivity|exact H0| |exact Hr| | | | |exact D1|]; cbn [smem with_mem]; try lia.
  - intros x Hx. rewrite Hr1 by lia. apply Hc. exact Hx.
  - rewrite <- D1. apply length_bytes_at.
  - intros m2 Hs2 Hr2 D2. wpure. wnil. rewrite with_mem_twice. apply HR.
    + congruence.
    + intros x Hx1 Hx2. rewrite Hr2 by lia. apply Hr1; lia.
    + exact D2.
Qed.
End Hash160.
