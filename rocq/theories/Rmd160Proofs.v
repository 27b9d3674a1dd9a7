(** * The standard library's hash160: RIPEMD-160 of SHA-256 (proof support) *)
From Coq Require Import ZArith String List Bool Lia.
Import ListNotations.
From Verif Require Import Wasm Std StdEnv WasmLogic WasmTac Spec SpecBytes Mem MemFacts Bytes ConvProofs ArithProofs BeProofs SpecHash HashFacts Sha256Proofs Sha256Main.
Open Scope string_scope.
Open Scope list_scope.
Open Scope Z_scope.

(** ** The tables *)
Definition tab_ok (a : Z) (f : nat -> Z) : bool := forallb (fun j => rd std_mem (a + Z.of_nat j) =? f j) (seq 0 80).
Lemma tab_at m a f j : consts m -> 0 <= a -> a + 80 <= 1352 -> tab_ok a f = true -> (j < 80)%nat -> rd m (a + Z.of_nat j) = f j.
Proof.
  intros Hc Ha Hb Ht Hj. unfold tab_ok in Ht. rewrite forallb_forall in Ht. specialize (Ht j). rewrite in_seq in Ht. specialize (Ht ltac:(lia)). apply Z.eqb_eq in Ht.
  rewrite <- Ht, seg_byte by lia. apply Hc. lia.
Qed.
Lemma tab_r : tab_ok 288 (fun j => Z.of_nat (rmd_r j)) = true. Proof. vm_compute. reflexivity. Qed.
Lemma tab_r' : tab_ok 368 (fun j => Z.of_nat (rmd_r' j)) = true. Proof. vm_compute. reflexivity. Qed.
Lemma tab_s : tab_ok 448 (fun j => rmd_s j (rmd_r j)) = true. Proof. vm_compute. reflexivity. Qed.
Lemma tab_s' : tab_ok 528 (fun j => rmd_s j (rmd_r' j)) = true. Proof. vm_compute. reflexivity. Qed.
Lemma arr_K m : consts m -> arr 4 m 608 (map rmd_K [0; 1; 2; 3; 4]%nat).
Proof. intros Hc. apply consts_arr; [exact Hc|lia|cbn; lia|vm_compute; reflexivity]. Qed.
Lemma arr_K' m : consts m -> arr 4 m 628 (map rmd_K' [0; 1; 2; 3; 4]%nat).
Proof. intros Hc. apply consts_arr; [exact Hc|lia|cbn; lia|vm_compute; reflexivity]. Qed.

Section Rmd.
Context {HS : Type} (E : env HS) (HE : has_std E).
Implicit Types (st : store HS) (R : result HS -> Prop).
Ltac wfin := unfold qcall, qblock, qfunc; wcbn.
Ltac msz := cbn [smem with_mem msize stn upd mcopy mfill ldbytes stbytes]; rewrite ?msize_stn, ?msize_mcopy, ?msize_mfill.

Lemma callf_wp round x y z k is ls stk st (Q : outcome HS -> Prop) : (round < 5)%nat ->
  wp E is (mkcfg ls (VI32 ((rmd_f round x y z + k) mod m32) :: stk) st) Q ->
  wp E (CallInd [T32; T32; T32; T32] [T32] :: is) (mkcfg ls (VI32 (Z.of_nat round) :: VI32 k :: VI32 z :: VI32 y :: VI32 x :: stk) st) Q.
Proof.
  intros Hr HR. unfold not_w.
  do 5 (destruct round as [|round]; [eapply wp_callind; [reflexivity|rewrite (std_tbl _ HE); reflexivity|
     unfold fun_types; erewrite (std_fun _ HE) by reflexivity; reflexivity|]; cbn [length firstn rev app skipn clocals cstack cstore]; wenter HE; wpure; wnil; rconv HR; reflexivity|]).
  lia.
Qed.

Lemma rotl32 n x : 0 <= n < 32 -> Z.lor ((x * 2 ^ (n mod 32)) mod m32) (x / 2 ^ (32 - n mod 32)) = rotl 32 n x.
Proof. intros H. unfold rotl. rewrite Z.shiftl_mul_pow2, Z.shiftr_div_pow2, (Z.mod_small n) by lia. reflexivity. Qed.
Lemma sum_rmd a f k x n : ((a + (f + k) mod n) mod n + x) mod n = (a + f + x + k) mod n.
Proof. rewrite Zplus_mod_idemp_l. rewrite <- Z.add_assoc, (Z.add_comm ((f + k) mod n)), Z.add_assoc, Zplus_mod_idemp_r. f_equal. ring. Qed.

Lemma rs_range j : (j < 80)%nat -> (rmd_r j < 16)%nat /\ (rmd_r' j < 16)%nat /\ 0 <= rmd_s j (rmd_r j) < 32 /\ 0 <= rmd_s j (rmd_r' j) < 32.
Proof.
  intros Hj. assert (HA : forallb (fun j => (Nat.ltb (rmd_r j) 16) && (Nat.ltb (rmd_r' j) 16) && ((0 <=? rmd_s j (rmd_r j)) && (rmd_s j (rmd_r j) <? 32)) && ((0 <=? rmd_s j (rmd_r' j)) && (rmd_s j (rmd_r' j) <? 32))) (seq 0 80) = true) by (vm_compute; reflexivity).
  rewrite forallb_forall in HA. specialize (HA j ltac:(apply in_seq; lia)). rewrite !andb_true_iff, !Nat.ltb_lt, !Z.leb_le, !Z.ltb_lt in HA. tauto.
Qed.

Lemma arr5 b m a w0 w1 w2 w3 w4 : ldn m a b = w0 /\ ldn m (a + Z.of_nat b) b = w1 /\ ldn m (a + 2 * Z.of_nat b) b = w2 /\ ldn m (a + 3 * Z.of_nat b) b = w3 /\
   ldn m (a + 4 * Z.of_nat b) b = w4 -> arr b m a [w0; w1; w2; w3; w4].
Proof.
  intros (H0 & H1 & H2 & H3 & H4) i Hi. cbn [length] in Hi.
  do 5 (destruct i as [|i]; [cbn [nth]; match goal with H : ldn _ _ _ = ?w |- _ = ?w => rewrite <- H end; f_equal; lia|]). lia.
Qed.
Lemma rmd_compress_eq X a b c d e a' b' c' d' e' : fold_left (rmd_left X) (seq 0 80) rmd_H = [a; b; c; d; e] -> fold_left (rmd_right X) (seq 0 80) rmd_H = [a'; b'; c'; d'; e'] ->
  rmd_compress rmd_H X = [(4023233417 + c + d') mod m32; (2562383102 + d + e') mod m32; (271733878 + e + a') mod m32; (3285377520 + a + b') mod m32; (1732584193 + b + c') mod m32].
Proof. unfold rmd_compress, rmd_H. intros -> ->. reflexivity. Qed.

Lemma compress_wp sp r X st R :
  gget (sglob st) "stack-pointer" = Some (VI32 sp) -> 1352 <= sp -> sp + 64 <= msize (smem st) -> 0 <= r -> r + 20 <= msize (smem st) -> msize (smem st) <= m32 ->
  consts (smem st) -> length X = 16%nat -> arr 4 (smem st) sp X ->
  (forall m', only_changes (smem st) m' r 20 -> arr 4 m' r (rmd_compress rmd_H X) -> R (RVals [] (with_mem st m'))) ->
  wpf E "hash160-compress" [VI32 r] st R.
Proof.
  intros Hg H0 Hm Hr Hrm Hm32 Hc HX HA HR. set (m := smem st) in *. wenter HE. wpure.
  eapply wp_loop0 with (z := 80) (I := fun z s => exists a b c d e a' b' c' d' e' q j, z = 80 - Z.of_nat j /\ (j < 80)%nat /\
     s = mkcfg [VI32 r; VI32 1732584193; VI32 4023233417; VI32 2562383102; VI32 271733878; VI32 3285377520; VI32 a; VI32 b; VI32 c; VI32 d; VI32 e; VI32 a'; VI32 b'; VI32 c'; VI32 d'; VI32 e'; VI32 (Z.of_nat j); VI32 q] [] st /\
     fold_left (rmd_left X) (seq 0 j) rmd_H = [a; b; c; d; e] /\ fold_left (rmd_right X) (seq 0 j) rmd_H = [a'; b'; c'; d'; e']).
  - lia.
  - eexists _, _, _, _, _, _, _, _, _, _, _, 0%nat. split; [|split; [|split; [reflexivity|]]]; [lia|lia|]. split; reflexivity.
  - intros z ls st' Hz (a & b & c & d & e & a' & b' & c' & d' & e' & q & j & -> & Hj & Hcf & HL & HRt). apply cfg_inj in Hcf as (-> & ->).
    pose proof (rs_range j Hj) as (Hr1 & Hr2 & Hs1 & Hs2).
    wpure. replace (Z.of_nat j / 16) with (Z.of_nat (j / 16)) by (rewrite Nat2Z.inj_div; reflexivity).
    assert (H5 : (j / 16 < 5)%nat) by (apply Nat.div_lt_upper_bound; lia). set (rnd := (j / 16)%nat) in *.
    rewrite (Z.mod_small (Z.of_nat rnd * 4)) by lia. apply wp_load; [fold m; msz; lia|]. cbn [ldval ldbytes]. fold m.
    rewrite (arr_get 4 m 608 (map rmd_K [0; 1; 2; 3; 4]%nat) rnd) by (try (apply arr_K; exact Hc); cbn [map length]; lia).
    replace (nth rnd (map rmd_K [0; 1; 2; 3; 4]%nat) 0) with (rmd_K rnd) by (do 5 (destruct rnd as [|rnd]; [reflexivity|]); lia).
    wpure. apply callf_wp; [exact H5|]. wpure. apply wp_gget with (v := VI32 sp); [exact Hg|]. wpure. apply wp_load; [fold m; msz; lia|]. cbn [ldval ldbytes]. fold m.
    rewrite ldn1, (Z.add_comm (Z.of_nat j)), (tab_at m 288 _ j Hc ltac:(lia) ltac:(lia) tab_r Hj). cbv beta. wpure.
    rewrite (Z.mod_small (Z.of_nat (rmd_r j) * 4)) by lia. rewrite (Z.mod_small (sp + Z.of_nat (rmd_r j) * 4)) by lia. apply wp_load; [fold m; msz; lia|]. cbn [ldval ldbytes]. fold m.
    rewrite (arr_get 4 m sp X (rmd_r j)) by (try exact HA; lia).
    wpure. apply wp_load; [fold m; msz; lia|]. cbn [ldval ldbytes]. fold m. rewrite ldn1, (Z.add_comm (Z.of_nat j)), (tab_at m 448 _ j Hc ltac:(lia) ltac:(lia) tab_s Hj). cbv beta.
    wpure.
    rewrite (Z.mod_small (Z.of_nat rnd * 4)) by lia. apply wp_load; [fold m; msz; lia|]. cbn [ldval ldbytes]. fold m.
    rewrite (arr_get 4 m 628 (map rmd_K' [0; 1; 2; 3; 4]%nat) rnd) by (try (apply arr_K'; exact Hc); cbn [map length]; lia).
    replace (nth rnd (map rmd_K' [0; 1; 2; 3; 4]%nat) 0) with (rmd_K' rnd) by (do 5 (destruct rnd as [|rnd]; [reflexivity|]); lia).
    wpure. replace ((4 - Z.of_nat rnd) mod 4294967296) with (Z.of_nat (4 - rnd)) by (rewrite Z.mod_small; lia).
    apply callf_wp; [lia|]. wpure. apply wp_gget with (v := VI32 sp); [exact Hg|]. wpure. apply wp_load; [fold m; msz; lia|]. cbn [ldval ldbytes]. fold m.
    rewrite ldn1, (Z.add_comm (Z.of_nat j)), (tab_at m 368 _ j Hc ltac:(lia) ltac:(lia) tab_r' Hj). cbv beta. wpure.
    rewrite (Z.mod_small (Z.of_nat (rmd_r' j) * 4)) by lia. rewrite (Z.mod_small (sp + Z.of_nat (rmd_r' j) * 4)) by lia. apply wp_load; [fold m; msz; lia|]. cbn [ldval ldbytes]. fold m.
    rewrite (arr_get 4 m sp X (rmd_r' j)) by (try exact HA; lia).
    wpure. apply wp_load; [fold m; msz; lia|]. cbn [ldval ldbytes]. fold m. rewrite ldn1, (Z.add_comm (Z.of_nat j)), (tab_at m 528 _ j Hc ltac:(lia) ltac:(lia) tab_s' Hj). cbv beta.
    wpure. rewrite (Z.mod_small (Z.of_nat j + 1)) by lia.
    assert (HLn : fold_left (rmd_left X) (seq 0 (S j)) rmd_H = rmd_left X [a; b; c; d; e] j) by (rewrite seq_S, fold_left_app, HL; reflexivity).
    assert (HRn : fold_left (rmd_right X) (seq 0 (S j)) rmd_H = rmd_right X [a'; b'; c'; d'; e'] j) by (rewrite seq_S, fold_left_app, HRt; reflexivity).
    remember (fold_left (rmd_left X) (seq 0 (S j)) rmd_H) as FL eqn:HFL. remember (fold_left (rmd_right X) (seq 0 (S j)) rmd_H) as FR eqn:HFR.
    unfold rmd_left, rmd_right, rmd_step, add_w in HLn, HRn. fold rnd in HLn, HRn. change (2 ^ 32) with m32 in HLn, HRn.
    rewrite <- (sum_rmd a _ (rmd_K rnd)), <- (rotl32 (rmd_s j (rmd_r j))), <- (rotl32 10 c) in HLn by lia.
    rewrite <- (sum_rmd a' _ (rmd_K' rnd)), <- (rotl32 (rmd_s j (rmd_r' j))), <- (rotl32 10 c') in HRn by lia.
    change (10 mod 32) with 10 in HLn, HRn. change (2 ^ 10) with 1024 in HLn, HRn. change (2 ^ (32 - 10)) with 4194304 in HLn, HRn.
    repeat match type of HLn with context [Z.lor ?x ?y] => let t := fresh "t" in set (t := Z.lor x y) in *; clearbody t end.
    repeat match type of HRn with context [Z.lor ?x ?y] => let t := fresh "t" in set (t := Z.lor x y) in *; clearbody t end.
    wbrif Hq.
    + apply Z.ltb_ge in Hq. assert (j = 79)%nat as -> by lia. wnil. wcbn. wpure.
      do 5 (eapply wp_store; [reflexivity|msz; fold m; lia|]; cbn [stbytes smem with_mem]; rewrite ?with_mem_twice; wpure). wnil.
      fold m. apply HR.
      * repeat (eapply only_trans; [|eapply only_weaken; [apply only_stn| |]; lia]). apply only_refl.
      * rewrite HFL in HLn. rewrite HFR in HRn. rewrite (rmd_compress_eq _ _ _ _ _ _ _ _ _ _ _ HLn HRn). clear HLn HRn HFL HFR. apply arr5. change (Z.of_nat 4) with 4. change (2 * 4) with 8. change (3 * 4) with 12. change (4 * 4) with 16. rewrite !Z.add_0_r.
        rewrite !Zplus_mod_idemp_l.
        split; [|split; [|split; [|split]]]; repeat (rewrite ldn_stn_other by lia); rewrite ldn_stn_same; change (256 ^ Z.of_nat 4) with 4294967296; apply Z.mod_mod; lia.
    + apply Z.ltb_lt in Hq. wfin. exists (80 - Z.of_nat (S j)). split; [lia|]. eexists _, _, _, _, _, _, _, _, _, _, _, (S j). split; [reflexivity|]. split; [lia|].
      replace (Z.of_nat (S j)) with (Z.of_nat j + 1) by lia. split; [reflexivity|]. split; [rewrite <- HFL; exact HLn|rewrite <- HFR; exact HRn].
Qed.
End Rmd.
