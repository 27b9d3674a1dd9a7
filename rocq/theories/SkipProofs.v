(** * check-clarity-name and the skip-* functions (proof support). *)
From Coq Require Import ZArith String List Bool Lia.
Import ListNotations.
From Verif Require Import Wasm Std StdEnv WasmLogic WasmTac Spec SpecBytes SpecUtf8 ZBits Mem MemFacts Bytes ArithProofs ConvProofs NameProofs Utf8Proofs Utf8Dec BeProofs ReadProofs
  Clar LangFacts SpecSer SpecSkip.
Open Scope string_scope.
Open Scope list_scope.
Open Scope Z_scope.

Lemma name_first c : 0 <= c < 256 -> ((Z.land c 2097119 - 65) mod m32 <? 26) = is_letter c.
Proof.
  intros H. apply eqb_prop. revert c H.
  apply (byte_cases (fun c => eqb ((Z.land c 2097119 - 65) mod m32 <? 26) (is_letter c))). vm_compute. reflexivity.
Qed.
Lemma name_digit c : 0 <= c < 256 -> ((c - 48) mod m32 <? 10) = is_digit c.
Proof.
  intros H. apply eqb_prop. revert c H.
  apply (byte_cases (fun c => eqb ((c - 48) mod m32 <? 10) (is_digit c))). vm_compute. reflexivity.
Qed.
Lemma name_special c : 0 <= c < 256 ->
  Z.land (b2z ((c - 33) mod m32 <? 63)) ((4611686020440675841 / 2 ^ (((c - 33) mod m32) mod 64)) mod m32) = b2z (existsb (Z.eqb c) [45; 95; 33; 63; 43; 60; 62; 61; 47; 42]).
Proof.
  intros H. apply Z.eqb_eq. revert c H.
  apply (byte_cases (fun c => Z.land (b2z ((c - 33) mod m32 <? 63)) ((4611686020440675841 / 2 ^ (((c - 33) mod m32) mod 64)) mod m32) =? b2z (existsb (Z.eqb c) [45; 95; 33; 63; 43; 60; 62; 61; 47; 42]))). vm_compute. reflexivity.
Qed.
Lemma name_single c : 0 <= c < 256 ->
  Z.land (b2z (c <? 63)) ((8070639648247906304 / 2 ^ (c mod 64)) mod m32) = b2z (existsb (Z.eqb c) [45; 43; 61; 47; 42; 60; 62]).
Proof.
  intros H. apply Z.eqb_eq. revert c H.
  apply (byte_cases (fun c => Z.land (b2z (c <? 63)) ((8070639648247906304 / 2 ^ (c mod 64)) mod m32) =? b2z (existsb (Z.eqb c) [45; 43; 61; 47; 42; 60; 62]))). vm_compute. reflexivity.
Qed.

Lemma name_pair c d : 0 <= c < 256 -> 0 <= d < 256 -> (Z.land (c + 256 * d) 4294967293 =? 15676) = ((c =? 60) || (c =? 62)) && (d =? 61).
Proof.
  intros Hc Hd. change 4294967293 with (253 + 2 ^ 8 * 16777215). change 256 with (2 ^ 8). rewrite land_split by lia.
  change 16777215 with (2 ^ 24 - 1). rewrite (land_mask d 24) by lia. rewrite (Z.mod_small d) by lia. change (2 ^ 8) with 256.
  assert (K : 0 <= Z.land c 253 < 256).
  { split; [apply Z.land_nonneg; lia|]. change 253 with (Z.land 255 253). rewrite Z.land_assoc, (land255 c Hc). 
    assert (A : (0 <=? Z.land c 253) && (Z.land c 253 <? 256) = true); [|lia].
    revert c Hc. apply (byte_cases (fun c => (0 <=? Z.land c 253) && (Z.land c 253 <? 256))). vm_compute. reflexivity. }
  assert (L : (Z.land c 253 =? 60) = ((c =? 60) || (c =? 62))).
  { apply eqb_prop. clear K. revert c Hc. apply (byte_cases (fun c => eqb (Z.land c 253 =? 60) ((c =? 60) || (c =? 62)))). vm_compute. reflexivity. }
  rewrite <- L. destruct (Z.eqb_spec (Z.land c 253 + 256 * d) 15676), (Z.eqb_spec (Z.land c 253) 60), (Z.eqb_spec d 61); cbn [andb]; try reflexivity; lia.
Qed.

(** the grammar as a test *)
Definition clarity_nameb (s : list Z) : bool :=
  match s with
  | [] => false
  | c :: r =>
      (Z.of_nat (length s) <=? 128) &&
      (if is_letter c then forallb is_clarity_char r
       else match r with
            | [] => existsb (Z.eqb c) [45; 43; 61; 47; 42; 60; 62]
            | [d] => ((c =? 60) || (c =? 62)) && (d =? 61)
            | _ => false
            end)
  end.

Section Skip.
Context {HS : Type} (E : env HS) (HE : has_std E).
Implicit Types (st : store HS) (R : result HS -> Prop).
Ltac wfin := unfold qcall, qblock, qfunc; wcbn.

Lemma load_i32_be_wp a n st R : 0 <= n < m32 -> holds (smem st) a (be_bytes 4 n) ->
  R (RVals [VI32 n] st) -> wpf E "stdlib.load-i32-be" [VI32 a] st R.
Proof.
  intros Hn H HR. pose proof (holds_len _ _ _ H) as (H0 & H1 & _). rewrite len_be_bytes in H1. pose proof (holds_eq _ _ _ H) as HB. rewrite len_be_bytes in HB.
  wenter HE. wpure. apply wp_load; [cbn [ldbytes]; lia|]. cbn [ldbytes ldval]. rewrite Z.add_0_r, ldn_le, HB.
  replace (le_val (be_bytes 4 n)) with (of_digits (be_bytes 4 n)).
  2:{ generalize (be_bytes 4 n). clear. induction l as [|x l IH]; [reflexivity|]. cbn [of_digits le_val]. rewrite IH. reflexivity. }
  pose proof (digits_range (be_bytes 4 n) (be_bytes_byte 4 n)) as Hr. rewrite len_be_bytes in Hr. change (256 ^ Z.of_nat 4) with m32 in Hr.
  set (w := of_digits (be_bytes 4 n)) in *. wpure. wnil. rconv HR. do 2 f_equal. symmetry.
  assert (K : of_digits (be_bytes 4 w) = n).
  { unfold be_bytes at 1. unfold w. rewrite <- (len_be_bytes 4 n) at 1. rewrite le_bytes_digits by apply be_bytes_byte. unfold be_bytes. rewrite rev_involutive. apply of_digits_le. exact Hn. }
  rewrite <- K. rewrite <- swap32 by exact Hr. reflexivity.
Qed.

Lemma check_clarity_name_wp a s st R : (s <> [] -> holds (smem st) a s) ->
  R (RVals [VI32 (b2z (clarity_nameb s))] st) -> Z.of_nat (length s) < m32 -> wpf E "stdlib.check-clarity-name" [VI32 a; vlen s] st R.
Proof.
  intros H HR Hlen. unfold vlen. wenter HE. wpure. wif Hsz.
  { wpure. wret. rconv HR. unfold clarity_nameb. destruct s as [|c r]; [reflexivity|].
    destruct (Z.leb_spec (Z.of_nat (length (c :: r))) 128) as [Hle|Hle]; [|reflexivity]. exfalso. cbn [length] in *. rewrite Nat2Z.inj_succ in *.
    replace ((Z.succ (Z.of_nat (length r)) - 129) mod m32) with (Z.succ (Z.of_nat (length r)) - 129 + m32) in Hsz; [lia|].
    symmetry. rewrite <- (Z.mod_add _ 1) by lia. apply Z.mod_small. lia. }
  wnil. destruct s as [|c r]; [exfalso; cbn [length Z.of_nat] in Hsz; vm_compute in Hsz; discriminate|]. specialize (H ltac:(discriminate)).
  assert (Hle : Z.of_nat (length (c :: r)) <= 128).
  { cbn [length] in *. rewrite Nat2Z.inj_succ in *. destruct (Z.leb_spec (Z.succ (Z.of_nat (length r))) 128); [auto|exfalso].
    rewrite Z.mod_small in Hsz by lia. lia. }
  unfold clarity_nameb in HR. rewrite (proj2 (Z.leb_le _ _) Hle) in HR. cbn [andb] in HR.
  pose proof H as H'. apply holds_cons in H as (Hx1 & Hx2 & Hx3 & Hx4 & Hx5 & Hx). 
  cbn [length] in *. rewrite Nat2Z.inj_succ in *.
  wpure. apply wp_load; [cbn [ldbytes]; lia|]. cbn [ldbytes ldval]. rewrite Z.add_0_r, ldn1, Hx1. wpure. rewrite name_first by auto.
  wif Hl; rewrite Hl in HR.
  - apply wp_block. wcbn.
    eapply wp_loop0 with (z := Z.of_nat (length r))
      (I := fun z cf => exists t a' w, cf = mkcfg [VI32 a'; VI32 (Z.succ z); w] [] st /\ z = Z.of_nat (length t) /\
         holds (smem st) (a' + 1) t /\ 0 <= a' /\ (length t <= length r)%nat /\ forallb is_clarity_char r = forallb is_clarity_char t).
    { lia. }
    { exists r, a. eexists. split; [reflexivity|]. split; [reflexivity|]. split; [exact Hx|]. split; [lia|]. split; [lia|reflexivity]. }
    intros z ls st' Hz (t & a' & w & Hc & Hzt & Ht & Ha0 & Ha1 & Hf). apply cfg_inj in Hc as (-> & ->).
    wpure. replace ((Z.succ z - 1) mod m32) with z by (rewrite Z.mod_small; lia).
    destruct t as [|x t].
    + cbn [length Z.of_nat] in Hzt. subst z. wbrif Hz0; [discriminate Hz0|]. wpure. wret. rewrite Hf in HR. exact HR.
    + cbn [length] in *. rewrite Nat2Z.inj_succ in Hzt. wbrif Hz0; [|lia].
      apply holds_cons in Ht as (Ht1 & Ht2 & Ht3 & Ht4 & Ht5 & Ht).
      wpure. rewrite (Z.mod_small (a' + 1)) by lia. apply wp_load; [cbn [ldbytes]; lia|]. cbn [ldbytes ldval]. rewrite Z.add_0_r, ldn1, Ht1.
      wpure. rewrite name_first by auto. cbn [forallb] in Hf. unfold is_clarity_char at 2 in Hf.
      assert (NEXT : forall w', is_clarity_char x = true -> exists z', 0 <= z' < z /\ exists t0 a'0 w0,
        mkcfg [VI32 (a' + 1); VI32 z; w'] [] st = mkcfg [VI32 a'0; VI32 (Z.succ z'); w0] [] st /\ z' = Z.of_nat (length t0) /\
         holds (smem st) (a'0 + 1) t0 /\ 0 <= a'0 /\ (length t0 <= length r)%nat /\ forallb is_clarity_char r = forallb is_clarity_char t0).
      { intros w' Hcc. exists (Z.of_nat (length t)). split; [lia|]. exists t, (a' + 1), w'. split; [rewrite Hzt; reflexivity|]. split; [reflexivity|].
        split; [exact Ht|]. split; [lia|]. split; [lia|]. rewrite Hf. unfold is_clarity_char in Hcc. rewrite Hcc. reflexivity. }
      unfold is_clarity_char in NEXT. wbrif Q1.
      2:{ apply NEXT. rewrite Q1. reflexivity. }
      wpure. rewrite name_digit by auto. wbrif Q2.
      2:{ apply NEXT. rewrite Q2, orb_true_r. reflexivity. }
      wpure. rewrite name_special by auto. apply wp_brif_eqz; intros Q3.
      * wnil. wnil. wpure. wret. rconv HR. rewrite Hf, Q1, Q2. replace (existsb (Z.eqb x) _) with false; [|destruct (existsb (Z.eqb x) _); [discriminate Q3|reflexivity]].
        cbn [orb andb]. rewrite (proj2 (Z.eqb_neq z 0)) by lia. reflexivity.
      * wfin. apply NEXT. destruct (existsb (Z.eqb x) _); [apply orb_true_r|contradiction].
  - wnil. wpure. wif H1.
    + assert (r = []) by (destruct r; [reflexivity|cbn [length] in *; lia]). subst r. wpure. apply wp_load; [cbn [ldbytes]; lia|]. cbn [ldbytes ldval]. rewrite Z.add_0_r, ldn1, Hx1.
      wpure. rewrite name_single by auto. wret. exact HR.
    + destruct r as [|d r]; [cbn in H1; discriminate|]. wnil. wpure. cbn [length] in *. rewrite Nat2Z.inj_succ in *. wif H2.
      * assert (r = []) by (destruct r; [reflexivity|cbn [length] in *; lia]). subst r.
        apply holds_cons in Hx as (Hd1 & Hd2 & Hd3 & Hd4 & Hd5 & _).
        wpure. apply wp_load; [cbn [ldbytes]; lia|]. cbn [ldbytes ldval]. rewrite Z.add_0_r, ldn_le. cbn [bytes_at]. rewrite Hx1, Hd1. cbn [le_val]. wpure. wret. rconv HR.
        do 3 f_equal. symmetry. rewrite Z.mul_0_r, Z.add_0_r. apply name_pair; auto.
      * destruct r as [|e r]; [cbn in H2; discriminate|]. wnil. wpure. wnil. exact HR.
Qed.

Lemma clarity_name_iff s : clarity_name s <-> clarity_nameb s = true.
Proof.
  unfold clarity_name, clarity_nameb. destruct s as [|c r].
  - split; [|discriminate]. intros (_ & [(c & r & H & _)|H]); [discriminate|]. cbn in H. decompose [or] H; try discriminate; contradiction.
  - rewrite andb_true_iff, Z.leb_le. split.
    + intros (Hl & H). split; [lia|]. destruct H as [(c' & r' & He & H1 & H2)|H].
      * injection He as -> ->. rewrite H1. exact H2.
      * cbn in H. decompose [or] H; try contradiction; match goal with K : _ = c :: r |- _ => injection K as <- <-; reflexivity end.
    + intros (Hl & H). split; [lia|]. destruct (is_letter c) eqn:Hc; [left; exists c, r; auto|right].
      destruct r as [|d [|? ?]].
      * cbn in H. rewrite !orb_true_iff, !Z.eqb_eq in H. cbn. intuition (subst; auto 12). discriminate.
      * rewrite andb_true_iff, orb_true_iff, !Z.eqb_eq in H. destruct H as ([-> | ->] & ->); cbn; auto 12.
      * discriminate.
Qed.

Section Skips.
Variables (st : store HS) (e : Z).
Hypothesis (He : e <= msize (smem st)) (Hm : msize (smem st) <= m32) (Hem : e < m32).

Lemma skip_int128_wp a R : 0 <= a -> a + 16 <= e -> R (RVals [VI32 (a + 16)] st) -> wpf E "skip-int128" [VI32 a; VI32 e] st R.
Proof.
  intros H0 H1 HR. wenter HE. wpure. rewrite (Z.mod_small (a + 16)) by lia. rewrite (proj2 (Z.leb_le (a + 16) e)) by lia. cbn [b2z Z.eqb]. wnil. exact HR.
Qed.

Lemma u32_len n : Z.of_nat (length (u32_be n)) = 4.
Proof. unfold u32_be. rewrite len_be_bytes. reflexivity. Qed.

Lemma skip_buffer_wp a n R : 0 <= a -> 0 <= n -> holds (smem st) a (u32_be n) -> a + 4 + n <= e ->
  R (RVals [VI32 (a + 4 + n)] st) -> wpf E "skip-buffer" [VI32 a; VI32 e] st R.
Proof.
  intros H0 Hz H H1 HR. wenter HE. wpure. rewrite (Z.mod_small (a + 4)) by lia. wif Hc; [lia|]. wnil. wpure. wcall HE.
  apply load_i32_be_wp with (n := n); [lia|exact H|]. wfin. wpure.
  rewrite (Z.mod_small (a + 4)) by lia. rewrite (Z.mod_small (a + 4 + n)) by lia.
  rewrite (proj2 (Z.leb_le (a + 4 + n) e)) by lia. cbn [b2z Z.eqb]. wnil. exact HR.
Qed.

Lemma skip_bool_wp a R : R (RVals [VI32 a] st) -> wpf E "skip-boolean-or-none" [VI32 a; VI32 e] st R.
Proof. intros HR. wenter HE. wpure. wnil. exact HR. Qed.

Lemma skip_principal_wp a v h R : 0 < a -> holds (smem st) a (v :: h) -> length h = 20%nat -> 0 <= v <= 32 -> a + 21 <= e ->
  R (RVals [VI32 (a + 21)] st) -> wpf E "skip-principal" [VI32 a; VI32 e] st R.
Proof.
  intros H0 H Hh Hv H1 HR. apply holds_cons in H as (Hx1 & Hx2 & Hx3 & Hx4 & Hx5 & Hx). wenter HE. wpure. rewrite (Z.mod_small (a + 21)) by lia. wif Hc; [|lia].
  wpure. apply wp_load; [cbn [ldbytes]; lia|]. cbn [ldbytes ldval]. rewrite Z.add_0_r, ldn1, Hx1. wpure. rewrite (proj2 (Z.leb_le v 32)) by lia. cbn [b2z Z.eqb]. wnil. wnil. exact HR.
Qed.

Lemma skip_contract_wp a v h n R : 0 < a -> holds (smem st) a (v :: h ++ zlen n :: n) -> length h = 20%nat -> 0 <= v <= 32 -> clarity_name n -> a + 22 + zlen n <= e ->
  R (RVals [VI32 (a + 22 + zlen n)] st) -> wpf E "skip-contract" [VI32 a; VI32 e] st R.
Proof.
  intros H0 H Hh Hv Hn H1 HR. assert (Hz : 0 <= zlen n) by (unfold zlen; lia).
  change (v :: h ++ zlen n :: n) with ((v :: h) ++ zlen n :: n) in H. apply holds_app in H as (Ha & Hb). cbn [length] in Hb. rewrite Hh in Hb. change (Z.of_nat 21) with 21 in Hb.
  apply holds_cons in Hb as (Hx1 & Hx2 & Hx3 & Hx4 & Hx5 & Hx).
  wenter HE. wpure. wcall HE. apply (skip_principal_wp a v h); auto; [lia|]. wfin. wpure.
  rewrite b2z_and. wif Hc; [|rewrite andb_false_iff in Hc; rewrite negb_false_iff in Hc; lia].
  wpure. apply wp_load; [cbn [ldbytes]; lia|]. cbn [ldbytes ldval]. rewrite Z.add_0_r, ldn1, Hx1. wpure. wif Hc2; [|lia].
  wpure. rewrite (Z.mod_small (a + 21 + 1)) by lia. rewrite (Z.mod_small (a + 21 + 1 + zlen n)) by lia. wcall HE.
  change (VI32 (zlen n)) with (vlen n). apply check_clarity_name_wp; [intros _; exact Hx| |unfold zlen in *; lia].
  rewrite (proj1 (clarity_name_iff n) Hn). cbn [b2z]. wfin. wpure. wret. rconv HR. do 2 f_equal. cbn [Z.eqb]. lia.
Qed.

Lemma skip_ascii_wp a bs R : 0 <= a -> holds (smem st) a (u32_be (zlen bs) ++ bs) -> Forall clarity_ascii bs -> a + 4 + zlen bs <= e -> e - a < 2 ^ 31 ->
  R (RVals [VI32 (a + 4 + zlen bs)] st) -> wpf E "skip-string-ascii" [VI32 a; VI32 e] st R.
Proof.
  intros H0 H Hb H1 H2 HR. assert (Hz : 0 <= zlen bs) by (unfold zlen; lia). apply holds_app in H as (Ha & Hs). rewrite u32_len in Hs.
  wenter HE. wpure. rewrite (Z.mod_small (e - a)) by lia. 
  rewrite !sgn32_small by (change h32 with (2 ^ 31); lia). wif Hc; [lia|]. wnil. wpure. wcall HE. apply load_i32_be_wp with (n := zlen bs); [lia|exact Ha|]. wfin. wpure.
  rewrite (Z.mod_small (a + 4)) by lia. rewrite (Z.mod_small (e - (a + 4))) by lia. rewrite !sgn32_small by (change h32 with (2 ^ 31); lia). wif Hc2; [lia|]. wnil. wpure. wcall HE.
  change (VI32 (zlen bs)) with (vlen bs). apply is_valid_string_ascii_wp; [exact HE|exact Hs|].
  replace (forallb asciib bs) with true by (symmetry; apply forallb_forall; intros x Hx; rewrite Forall_forall in Hb; apply asciib_spec; apply Hb; exact Hx).
  cbn [b2z]. wfin. wpure. rewrite (Z.mod_small (a + 4 + zlen bs)) by lia. wnil. exact HR.
Qed.

(** one character of the string *)
Lemma skip_utf8_wp a cs R : 0 <= a -> holds (smem st) a (u32_be (zlen (utf8 cs)) ++ utf8 cs) -> Forall scalar cs -> a + 4 + zlen (utf8 cs) <= e -> e - a < 2 ^ 31 ->
  R (RVals [VI32 (a + 4 + zlen (utf8 cs))] st) -> wpf E "skip-string-utf8" [VI32 a; VI32 e] st R.
Proof.
  intros H0 H Hb H1 H2 HR. set (bs := utf8 cs) in *. assert (Hz : 0 <= zlen bs) by (unfold zlen; lia). apply holds_app in H as (Ha & Hs). rewrite u32_len in Hs.
  wenter HE. wpure. rewrite (Z.mod_small (e - a)) by lia. 
  rewrite !sgn32_small by (change h32 with (2 ^ 31); lia). wif Hc; [lia|]. wnil. wpure. wcall HE. apply load_i32_be_wp with (n := zlen bs); [lia|exact Ha|]. wfin. wpure.
  rewrite (Z.mod_small (a + 4)) by lia. rewrite (Z.mod_small (e - (a + 4))) by lia. rewrite !sgn32_small by (change h32 with (2 ^ 31); lia). wif Hc2; [lia|]. wnil. wpure.
  apply wp_block. wcbn. wpure. wbrif Hz0.
  2:{ wpure. assert (Hz1 : zlen bs = 0) by lia. rewrite Hz1. cbn [Z.eqb]. wnil. rewrite Hz1, Z.add_0_r in HR. exact HR. }
  clear Hc Hc2. set (s0 := zlen bs) in *.
  eapply wp_loop0 with (z := zlen bs)
    (I := fun z cf => exists cs' w1 w2, cf = mkcfg [VI32 (a + 4 + s0 - z); VI32 e; VI32 z; w1; w2] [] st /\ z = zlen (utf8 cs') /\ 0 < z <= s0 /\
         holds (smem st) (a + 4 + s0 - z) (utf8 cs') /\ Forall scalar cs').
  { lia. }
  { exists cs. do 2 eexists. split; [replace (a + 4 + s0 - zlen bs) with (a + 4) by (unfold s0; lia); reflexivity|]. split; [reflexivity|]. split; [fold s0; lia|].
    replace (a + 4 + s0 - zlen bs) with (a + 4) by (unfold s0; lia). split; [exact Hs|exact Hb]. }
  intros z ls st' Hzn (cs' & w1 & w2 & Hcf & Hzl & Hzr & Ht & Hsc). apply cfg_inj in Hcf as (-> & ->).
  destruct cs' as [|c cs']; [cbn in Hzl; lia|]. inversion_clear Hsc as [|? ? Hc1 Hc2]. rewrite utf8_cons in Ht, Hzl.
  set (p := a + 4 + s0 - z) in *. assert (Hp0 : 0 <= p) by lia. assert (Hpz : p + z <= e) by lia. assert (Hpz4 : p + z < m32) by lia.
  apply holds_app in Ht as (Ht1 & Ht2). pose proof (holds_len _ _ _ Ht1) as (_ & Ht3 & _). pose proof (holds_eq _ _ _ Ht1) as Ht4.
  unfold zlen in Hzl. rewrite app_length, Nat2Z.inj_add in Hzl. fold (zlen (utf8 cs')) in Hzl.
  pose proof (utf8_char_nat c) as Hcn. set (n := length (utf8_char c)) in *.
  assert (Hne : need (rd (smem st) p) = Z.of_nat n).
  { apply holds_eq in Ht1. fold n in Ht1. clear - Ht1 Hcn Hc1. unfold n in *. destruct (utf8_char c) as [|b0 r] eqn:Hu; [cbn in Hcn; lia|].
    cbn [bytes_at length] in Ht1. apply cons_inj in Ht1 as [Ht1 _]. rewrite Ht1, <- Hu. apply (need_len c r); auto. }
  assert (D : dec (rd (smem st) p) (rd (smem st) (p+1)) (rd (smem st) (p+2)) (rd (smem st) (p+3)) = Some (c, Z.of_nat n)).
  { apply dec_char; auto; try apply rd_range. fold n. rewrite <- Ht4. fold n. clear - Hcn.
    destruct n as [|[|[|[|[|n]]]]]; try lia; cbn [bytes_at firstn]; replace (p + 1 + 1) with (p + 2) by lia; replace (p + 2 + 1) with (p + 3) by lia; reflexivity. }
  assert (Hzlen : 0 <= zlen (utf8 cs')) by (unfold zlen; lia).
  assert (NEXT : forall w1 w2, z - Z.of_nat n <> 0 -> exists z', 0 <= z' < z /\ exists cs0 w3 w4,
     mkcfg [VI32 (p + Z.of_nat n); VI32 e; VI32 (z - Z.of_nat n); w1; w2] [] st = mkcfg [VI32 (a + 4 + s0 - z'); VI32 e; VI32 z'; w3; w4] [] st /\ z' = zlen (utf8 cs0) /\ 0 < z' <= s0 /\
         holds (smem st) (a + 4 + s0 - z') (utf8 cs0) /\ Forall scalar cs0).
  { intros v1 v2 Hnz. exists (z - Z.of_nat n). split; [lia|]. exists cs', v1, v2. replace (a + 4 + s0 - (z - Z.of_nat n)) with (p + Z.of_nat n) by (unfold p; lia).
    split; [reflexivity|]. split; [lia|]. split; [lia|]. split; [exact Ht2|exact Hc2]. }
  assert (DONE : z - Z.of_nat n = 0 -> R (RVals [VI32 (p + Z.of_nat n)] st)).
  { intros Hd. replace (p + Z.of_nat n) with (a + 4 + s0) by (unfold p; lia). exact HR. }
  assert (Hzge : Z.of_nat n <= z) by lia. clear HR Ht2 Hc2 Hs Ha Hzl.
  pose proof (rd_range (smem st) p) as Hb0. unfold need in Hne. unfold dec in D.
  set (m := smem st) in *. set (b0 := rd m p) in *. set (b1 := rd m (p + 1)) in *. set (b2 := rd m (p + 2)) in *. set (b3 := rd m (p + 3)) in *.
  wpure. apply wp_load; [cbn [ldbytes]; fold m; lia|]. cbn [ldbytes ldval]. fold m. rewrite ldn1, Z.add_0_r. fold b0. wpure.
  wif Q1; rewrite Q1 in *.
  { replace (Z.of_nat n) with 1 in *. wpure. rewrite (Z.mod_small (p + 1)), (Z.mod_small (z - 1)) by lia. apply wp_brif_eqz; intros Hnz; wfin.
    - wpure. wbr. wpure. rewrite Hnz. cbn [Z.eqb]. wnil. apply DONE. exact Hnz.
    - apply NEXT. exact Hnz. }
  wnil. wpure. wif Q2; rewrite Q2 in *.
  { rewrite (lead2_byte b0 Hb0) in Q2. assert (Hr : 192 <= b0 < 224) by lia. destruct (Z.ltb_spec b0 224) as [_|]; [|lia]. rewrite <- Hne in *.
    destruct (Z.land b1 192 =? 128) eqn:C1; [|discriminate D]. cbv zeta in D. match type of D with (if ?c then _ else _) = _ => destruct c eqn:C2; [discriminate D|] end. clear D.
    wpure. wbrif C3; [|lia]. wpure. apply wp_load; [cbn [ldbytes]; fold m; lia|]. cbn [ldbytes ldval]. fold m. rewrite ldn1. fold b1. wpure. rewrite C1. cbn [negb].
    wbrif C4; [clear C4|discriminate C4]. wpure. rewrite C2. wbrif C5; [clear C5|discriminate C5]. wpure.
    rewrite (Z.mod_small (p + 2)), (Z.mod_small (z - 2)) by lia. apply wp_brif_eqz; intros Hnz; wfin.
    - wpure. wbr. wpure. rewrite Hnz. cbn [Z.eqb]. wnil. apply DONE. exact Hnz.
    - apply NEXT. exact Hnz. }
  wnil. wpure. wif Q3; rewrite Q3 in *.
  { rewrite (lead3_byte b0 Hb0) in Q3. assert (Hr : 224 <= b0 < 240) by lia. destruct (Z.ltb_spec b0 224) as [|_]; [lia|]. destruct (Z.ltb_spec b0 240) as [_|]; [|lia]. rewrite <- Hne in *.
    destruct (Z.land b1 192 =? 128) eqn:C1; [|discriminate D]. destruct (Z.land b2 192 =? 128) eqn:C2; [|discriminate D]. cbv zeta in D. match type of D with (if ?x || ?y then _ else _) = _ => destruct x eqn:C3, y eqn:C4; try discriminate D end. clear D.
    wpure. wbrif K; [clear K|lia]. wpure. apply wp_load; [cbn [ldbytes]; fold m; lia|]. cbn [ldbytes ldval]. fold m. rewrite ldn1. fold b1. wpure. rewrite C1. cbn [negb].
    wbrif K; [clear K|discriminate K]. wpure. apply wp_load; [cbn [ldbytes]; fold m; lia|]. cbn [ldbytes ldval]. fold m. rewrite ldn1. fold b2. wpure. rewrite C2. cbn [negb].
    wbrif K; [clear K|discriminate K]. wpure. rewrite C4. wbrif K; [clear K|discriminate K]. wpure. rewrite C3. wbrif K; [clear K|discriminate K]. wpure.
    rewrite (Z.mod_small (p + 3)), (Z.mod_small (z - 3)) by lia. apply wp_brif_eqz; intros Hnz; wfin.
    - wpure. wbr. wpure. rewrite Hnz. cbn [Z.eqb]. wnil. apply DONE. exact Hnz.
    - apply NEXT. exact Hnz. }
  wnil. wpure. wif Q4; rewrite Q4 in *; [|discriminate D].
  rewrite (lead4_byte b0 Hb0) in Q4. assert (Hr : 240 <= b0 < 248) by lia. destruct (Z.ltb_spec b0 224) as [|_]; [lia|]. destruct (Z.ltb_spec b0 240) as [|_]; [lia|]. rewrite <- Hne in *.
  destruct (Z.land b1 192 =? 128) eqn:C1; [|discriminate D]. destruct (Z.land b2 192 =? 128) eqn:C2; [|discriminate D]. destruct (Z.land b3 192 =? 128) eqn:C3; [|discriminate D].
  cbv zeta in D. match type of D with (if ?x then _ else _) = _ => destruct x eqn:C4; try discriminate D end. clear D.
  wpure. wbrif K; [clear K|lia]. wpure. apply wp_load; [cbn [ldbytes]; fold m; lia|]. cbn [ldbytes ldval]. fold m. rewrite ldn1. fold b1. wpure. rewrite C1. cbn [negb].
  wbrif K; [clear K|discriminate K]. wpure. apply wp_load; [cbn [ldbytes]; fold m; lia|]. cbn [ldbytes ldval]. fold m. rewrite ldn1. fold b2. wpure. rewrite C2. cbn [negb].
  wbrif K; [clear K|discriminate K]. wpure. apply wp_load; [cbn [ldbytes]; fold m; lia|]. cbn [ldbytes ldval]. fold m. rewrite ldn1. fold b3. wpure. rewrite C3. cbn [negb].
  wbrif K; [clear K|discriminate K]. wpure. rewrite C4. wbrif K; [clear K|discriminate K]. wpure.
  rewrite (Z.mod_small (p + 4)), (Z.mod_small (z - 4)) by lia. apply wp_brif_eqz; intros Hnz; wfin.
  - wnil. wnil. wnil. wpure. rewrite Hnz. cbn [Z.eqb]. wnil. apply DONE. exact Hnz.
  - apply NEXT. exact Hnz.
Qed.

(** the host's skip_list, linker.rs 5167-5203, at this state *)
Variable good : list value -> Prop.
Hypothesis HL : forall vs, good vs -> efun E "skip-list" = None /\ forall a R, wire (CList vs) -> 0 <= a -> holds (smem st) a (u32_be (zlen vs) ++ flat_map sip005 vs) ->
  a + 4 + zlen (flat_map sip005 vs) <= e -> e - a < 2 ^ 31 -> R (RVals [VI32 (a + 4 + zlen (flat_map sip005 vs))] st) -> wpf E "skip-list" [VI32 a; VI32 e] st R.

Definition skips (v : value) : Prop := forall a R, 0 <= a -> wire v -> (forall vs, In vs (lists_in v) -> good vs) -> holds (smem st) a (sip005 v) ->
  a + zlen (sip005 v) <= e -> e - a < 2 ^ 31 -> R (RVals [VI32 (a + zlen (sip005 v))] st) -> wpf E "stdlib.skip-unknown-value" [VI32 a; VI32 e] st R.

Definition wire_fields (fs : list (string * value)) : Prop := Forall (fun f => clarity_name (chars (fst f)) /\ wire (snd f)) fs.
Lemma zlen_cons' {A} (x : A) l : zlen (x :: l) = 1 + zlen l. Proof. unfold zlen. cbn [length]. lia. Qed.
Lemma zlen_app' {A} (l r : list A) : zlen (l ++ r) = zlen l + zlen r. Proof. unfold zlen. rewrite app_length. lia. Qed.
Lemma zlen_nn {A} (l : list A) : 0 <= zlen l. Proof. unfold zlen. lia. Qed.

Lemma skip_tuple_wp fs a R : Forall (fun f => skips (snd f)) fs -> 0 <= a -> fs <> [] -> zlen fs < 2 ^ 32 -> wire_fields fs ->
  (forall vs, In vs (flat_map (fun f => lists_in (snd f)) fs) -> good vs) ->
  holds (smem st) a (u32_be (zlen fs) ++ sip005_fields fs) -> a + 4 + zlen (sip005_fields fs) <= e -> e - a < 2 ^ 31 ->
  R (RVals [VI32 (a + 4 + zlen (sip005_fields fs))] st) -> wpf E "skip-tuple" [VI32 a; VI32 e] st R.
Proof.
  intros HF H0 Hne Hn Hw Hl H H1 H2 HR. pose proof (zlen_nn (sip005_fields fs)) as Hz. apply holds_app in H as (Ha & Hs). rewrite u32_len in Hs.
  assert (Hn0 : 0 < zlen fs) by (destruct fs; [congruence|rewrite zlen_cons'; pose proof (zlen_nn fs); lia]).
  wenter HE. wpure. rewrite (Z.mod_small (a + 4)) by lia. wif Hc; [lia|]. clear Hc. wnil. wpure. wcall HE. apply load_i32_be_wp with (n := zlen fs); [lia|exact Ha|]. wfin. wpure.
  wif Hc; [lia|]. clear Hc. wnil. wpure. rewrite (Z.mod_small (a + 4)) by lia. apply wp_block. wcbn.
  set (fin := a + 4 + zlen (sip005_fields fs)) in *. set (N := zlen fs) in *.
  eapply wp_loop0 with (z := N)
    (I := fun z cf => exists fs' p w, cf = mkcfg [VI32 p; VI32 e; VI32 z; w] [] st /\ z = zlen fs' /\ 0 < z < m32 /\ a < p /\ p + zlen (sip005_fields fs') = fin /\
       holds (smem st) p (sip005_fields fs') /\ Forall (fun f => skips (snd f)) fs' /\ wire_fields fs' /\ (forall vs, In vs (flat_map (fun f => lists_in (snd f)) fs') -> good vs)).
  { lia. }
  { exists fs. do 2 eexists. split; [reflexivity|]. split; [reflexivity|]. split; [fold N; lia|]. split; [lia|]. split; [reflexivity|].
    split; [exact Hs|]. split; [exact HF|]. split; [exact Hw|exact Hl]. }
  intros z ls st' Hzn (fs' & p & w & Hcf & Hzl & Hzr & Hpa & Hpf & Hp & HF' & Hw' & Hl'). apply cfg_inj in Hcf as (-> & ->).
  destruct fs' as [|[k v] fs']; [cbn in Hzl; lia|]. rewrite zlen_cons' in Hzl. inversion_clear HF' as [|? ? Hv HF1]. inversion_clear Hw' as [|? ? (Hk & Hwv) Hw1]. cbn [fst snd] in *.
  change (sip005_fields ((k, v) :: fs')) with (zlen (chars k) :: chars k ++ sip005 v ++ sip005_fields fs') in *.
  rewrite zlen_cons', !zlen_app' in Hpf. pose proof (zlen_nn (chars k)) as Hk0. pose proof (zlen_nn (sip005 v)) as Hv0. pose proof (zlen_nn (sip005_fields fs')) as Hf0. pose proof (zlen_nn fs') as Hf1.
  apply holds_cons in Hp as (Hx1 & Hx2 & Hx3 & Hx4 & Hx5 & Hx). apply holds_app in Hx as (Hy & Hx). apply holds_app in Hx as (Hvv & Hx).
  fold (zlen (chars k)) in Hvv, Hx. fold (zlen (sip005 v)) in Hx.
  assert (HvL : 0 < zlen (sip005 v)). { destruct v; cbn [sip005]; try rewrite zlen_cons'; try (match goal with |- context[zlen ?l] => pose proof (zlen_nn l) end; lia); destruct p0; cbn [sip005_prin]; rewrite zlen_cons'; match goal with |- context[1 + zlen ?l] => pose proof (zlen_nn l) end; lia. }
  wpure. wbrif Hc; [|lia]. clear Hc. wpure. apply wp_load; [cbn [ldbytes]; lia|]. cbn [ldbytes ldval]. rewrite Z.add_0_r, ldn1, Hx1. wpure.
  rewrite (Z.mod_small (p + 1)) by lia. wcall HE. change (VI32 (zlen (chars k))) with (vlen (chars k)). apply check_clarity_name_wp; [intros _; exact Hy| |unfold zlen in *; lia].
  rewrite (proj1 (clarity_name_iff _) Hk). cbn [b2z]. wfin. wpure. cbn [Z.eqb]. wbrif Hc; [|discriminate Hc]. clear Hc. wpure.
  rewrite (Z.mod_small (p + 1 + zlen (chars k))) by lia. wcall HE.
  apply Hv; [lia|exact Hwv|intros ws q; apply Hl'; cbn [flat_map snd]; apply in_or_app; left; exact q|exact Hvv|lia|lia|]. wfin. wpure.
  wbrif Hc; [|lia]. clear Hc. wpure. rewrite (Z.mod_small (z - 1)) by lia.
  set (p' := p + 1 + zlen (chars k) + zlen (sip005 v)) in *.
  apply wp_brif_eqz; intros Hnz; wfin.
  - wnil. wnil. wpure. rewrite Hnz. cbn [Z.eqb]. wnil. replace p' with fin; [exact HR|]. assert (fs' = []) as -> by (destruct fs'; [reflexivity|rewrite zlen_cons' in Hzl; pose proof (zlen_nn fs'); lia]). unfold p'. change (zlen (sip005_fields [])) with 0 in Hpf. lia.
  - exists (z - 1). split; [lia|]. exists fs', p', (VI32 (zlen (chars k))). split; [reflexivity|]. split; [lia|]. split; [lia|]. split; [unfold p'; lia|]. split; [unfold p'; lia|].
    split; [exact Hx|]. split; [exact HF1|]. split; [exact Hw1|]. intros ws q. apply Hl'. cbn [flat_map]. apply in_or_app. right. exact q.
Qed.

Lemma wire_fields_eq fs : wire (CTuple fs) -> fs <> [] /\ zlen fs < 2 ^ 32 /\ wire_fields fs.
Proof.
  cbn [wire]. intros (Ha & Hb & Hc). split; [exact Ha|]. split; [exact Hb|]. clear Ha Hb. induction fs as [|[k v] fs IH]; [apply Forall_nil|].
  destruct Hc as (Hx & Hy & Hc). apply Forall_cons; [split; assumption|apply IH; exact Hc].
Qed.


Ltac fit H := match goal with |- _ (RVals [VI32 ?x] _) => match type of H with _ (RVals [VI32 ?y] _) => replace x with y by lia; exact H end end.
Lemma skip_value_wp v : skips v.
Proof.
  assert (TAG : forall a bs t f R, 0 <= a -> holds (smem st) a (t :: bs) -> a + 1 + zlen bs <= e -> 0 <= t <= 14 -> nth_error std_table (Z.to_nat (t + 5)) = Some f ->
     match fun_types E f with Some (ps', rs') => vts_eqb [T32; T32] ps' && vts_eqb [T32] rs' = true | None => True end ->
     (forall R', R' (RVals [VI32 (a + 1 + zlen bs)] st) -> wpf E f [VI32 (a + 1); VI32 e] st R') ->
     R (RVals [VI32 (a + zlen (t :: bs))] st) -> wpf E "stdlib.skip-unknown-value" [VI32 a; VI32 e] st R).
  { intros a bs t f R H0 H H1 Ht Hf Hty Hrun HR. apply holds_cons in H as (Hx1 & Hx2 & Hx3 & Hx4 & Hx5 & Hx). pose proof (zlen_nn bs) as Hz.
    wenter HE. wpure. wif Hc; [lia|]. clear Hc. wpure. apply wp_load; [cbn [ldbytes]; lia|]. cbn [ldbytes ldval]. rewrite Z.add_0_r, ldn1, Hx1. wpure. wif Hc; [lia|]. clear Hc. wnil. wpure.
    rewrite (Z.mod_small (a + 1)), (Z.mod_small (t + 5)) by lia.
    eapply wp_callind; [reflexivity|rewrite (std_tbl _ HE); exact Hf|exact Hty|]. cbn [length firstn rev app skipn cstore clocals]. apply Hrun. wfin. wnil. wnil.
    rewrite zlen_cons' in HR. replace (a + 1 + zlen bs) with (a + (1 + zlen bs)) by lia. exact HR. }
  assert (FT : forall n f, assoc n std_funs = Some f -> fun_types E n = Some (fparams f, fresults f)).
  { intros n f Hf. unfold fun_types. rewrite (std_fun _ HE _ _ Hf). reflexivity. }
  induction v using value_ind'; try rename H into IHF; intros a R H0 Hw Hl H H1 H2 HR; cbn [sip005 wire lists_in] in Hw, Hl, H, H1, HR; try rewrite !zlen_cons', ?zlen_app' in H1.
  - (* int *)
    assert (L : zlen (be_bytes 16 (z mod 2 ^ 128)) = 16) by (unfold zlen; rewrite len_be_bytes; reflexivity).
    eapply (TAG a _ 0 "skip-int128"); [lia|exact H|lia|lia|reflexivity|erewrite FT by reflexivity; reflexivity| |exact HR].
    intros R' HR'. rewrite L in *. apply skip_int128_wp; [lia|lia|exact HR'].
  - assert (L : zlen (be_bytes 16 z) = 16) by (unfold zlen; rewrite len_be_bytes; reflexivity).
    eapply (TAG a _ 1 "skip-int128"); [lia|exact H|lia|lia|reflexivity|erewrite FT by reflexivity; reflexivity| |exact HR].
    intros R' HR'. rewrite L in *. apply skip_int128_wp; [lia|lia|exact HR'].
  - destruct b.
    + eapply (TAG a [] 3 "skip-boolean-or-none"); [lia|exact H|cbn; cbn in H1; lia|lia|reflexivity|erewrite FT by reflexivity; reflexivity| |exact HR].
      intros R' HR'. apply skip_bool_wp. change (zlen []) with 0 in HR'. rewrite Z.add_0_r in HR'. exact HR'.
    + eapply (TAG a [] 4 "skip-boolean-or-none"); [lia|exact H|cbn; cbn in H1; lia|lia|reflexivity|erewrite FT by reflexivity; reflexivity| |exact HR].
      intros R' HR'. apply skip_bool_wp. change (zlen []) with 0 in HR'. rewrite Z.add_0_r in HR'. exact HR'.
  - destruct p as [ver h|ver h n]; cbn [sip005_prin wire_prin] in *.
    + destruct Hw as (Hw1 & Hw2 & Hw3). rewrite !zlen_cons' in H1. assert (L : zlen h = 20) by (unfold zlen; lia).
      eapply (TAG a _ 5 "skip-principal"); [lia|exact H|rewrite !zlen_cons'; lia|lia|reflexivity|erewrite FT by reflexivity; reflexivity| |exact HR].
      intros R' HR'. rewrite !zlen_cons' in HR'. apply holds_cons in H as (_ & _ & _ & _ & _ & H). apply (skip_principal_wp _ ver h); [lia|exact H|exact Hw2|lia|lia|]. fit HR'.
    + destruct Hw as (Hw1 & Hw2 & Hw3 & Hw4). rewrite !zlen_cons', zlen_app', !zlen_cons' in H1. assert (L : zlen h = 20) by (unfold zlen; lia). pose proof (zlen_nn n).
      eapply (TAG a _ 6 "skip-contract"); [lia|exact H|rewrite !zlen_cons', zlen_app', !zlen_cons'; lia|lia|reflexivity|erewrite FT by reflexivity; reflexivity| |exact HR].
      intros R' HR'. rewrite !zlen_cons', zlen_app', !zlen_cons' in HR'. apply holds_cons in H as (_ & _ & _ & _ & _ & H). apply (skip_contract_wp _ ver h n); [lia|exact H|exact Hw2|lia|exact Hw4|lia|]. fit HR'.
  - destruct p as [ver h|ver h n]; cbn [sip005_prin wire_prin] in *.
    + destruct Hw as (Hw1 & Hw2 & Hw3). rewrite !zlen_cons' in H1. assert (L : zlen h = 20) by (unfold zlen; lia).
      eapply (TAG a _ 5 "skip-principal"); [lia|exact H|rewrite !zlen_cons'; lia|lia|reflexivity|erewrite FT by reflexivity; reflexivity| |exact HR].
      intros R' HR'. rewrite !zlen_cons' in HR'. apply holds_cons in H as (_ & _ & _ & _ & _ & H). apply (skip_principal_wp _ ver h); [lia|exact H|exact Hw2|lia|lia|]. fit HR'.
    + destruct Hw as (Hw1 & Hw2 & Hw3 & Hw4). rewrite !zlen_cons', zlen_app', !zlen_cons' in H1. assert (L : zlen h = 20) by (unfold zlen; lia). pose proof (zlen_nn n).
      eapply (TAG a _ 6 "skip-contract"); [lia|exact H|rewrite !zlen_cons', zlen_app', !zlen_cons'; lia|lia|reflexivity|erewrite FT by reflexivity; reflexivity| |exact HR].
      intros R' HR'. rewrite !zlen_cons', zlen_app', !zlen_cons' in HR'. apply holds_cons in H as (_ & _ & _ & _ & _ & H). apply (skip_contract_wp _ ver h n); [lia|exact H|exact Hw2|lia|exact Hw4|lia|]. fit HR'.
  - eapply (TAG a _ 2 "skip-buffer"); [lia|exact H|rewrite zlen_app'; lia|lia|reflexivity|erewrite FT by reflexivity; reflexivity| |exact HR].
    intros R' HR'. destruct Hw as (Hw1 & Hw2). pose proof (zlen_nn l). rewrite zlen_app' in HR'. unfold zlen at 1 in H1. rewrite u32_len in H1. unfold zlen at 1 in HR'. rewrite u32_len in HR'.
    apply holds_cons in H as (_ & _ & _ & _ & _ & H). apply holds_app in H as (H & _). apply skip_buffer_wp with (n := zlen l); [lia|lia|exact H|lia|]. fit HR'.
  - eapply (TAG a _ 13 "skip-string-ascii"); [lia|exact H|rewrite zlen_app'; lia|lia|reflexivity|erewrite FT by reflexivity; reflexivity| |exact HR].
    intros R' HR'. destruct Hw as (Hw1 & Hw2). pose proof (zlen_nn l). rewrite zlen_app' in HR'. unfold zlen at 1 in H1. rewrite u32_len in H1. unfold zlen at 1 in HR'. rewrite u32_len in HR'.
    apply holds_cons in H as (_ & _ & _ & _ & _ & H). apply skip_ascii_wp with (bs := l); [lia|exact H|exact Hw2|lia|lia|]. fit HR'.
  - eapply (TAG a _ 14 "skip-string-utf8"); [lia|exact H|rewrite zlen_app'; lia|lia|reflexivity|erewrite FT by reflexivity; reflexivity| |exact HR].
    intros R' HR'. destruct Hw as (Hw1 & Hw2). pose proof (zlen_nn (utf8 l)). rewrite zlen_app' in HR'. unfold zlen at 1 in H1. rewrite u32_len in H1. unfold zlen at 1 in HR'. rewrite u32_len in HR'.
    apply holds_cons in H as (_ & _ & _ & _ & _ & H). apply skip_utf8_wp with (cs := l); [lia|exact H|exact Hw2|lia|lia|]. fit HR'.
  - destruct (HL l (Hl l (or_introl eq_refl))) as (HL1 & HL2).
    eapply (TAG a _ 11 "skip-list"); [lia|exact H|rewrite zlen_app'; lia|lia|reflexivity|unfold fun_types; rewrite HL1; exact I| |exact HR].
    intros R' HR'. rewrite zlen_app' in HR'. unfold zlen at 1 in H1. rewrite u32_len in H1. unfold zlen at 1 in HR'. rewrite u32_len in HR'.
    apply holds_cons in H as (_ & _ & _ & _ & _ & H). apply HL2; [exact Hw|lia|exact H|lia|lia|]. fit HR'.
  - eapply (TAG a [] 9 "skip-boolean-or-none"); [lia|exact H|cbn; cbn in H1; lia|lia|reflexivity|erewrite FT by reflexivity; reflexivity| |exact HR].
    intros R' HR'. apply skip_bool_wp. change (zlen []) with 0 in HR'. rewrite Z.add_0_r in HR'. exact HR'.
  - pose proof (zlen_nn (sip005 v)). eapply (TAG a _ 10 "skip-some-ok-err"); [lia|exact H|lia|lia|reflexivity|erewrite FT by reflexivity; reflexivity| |exact HR].
    intros R' HR'. apply holds_cons in H as (_ & _ & _ & _ & _ & H). wenter HE. wpure. wcall HE. apply IHv; [lia|exact Hw|exact Hl|exact H|lia|lia|]. wfin. wnil. exact HR'.
  - pose proof (zlen_nn (sip005 v)). eapply (TAG a _ 7 "skip-some-ok-err"); [lia|exact H|lia|lia|reflexivity|erewrite FT by reflexivity; reflexivity| |exact HR].
    intros R' HR'. apply holds_cons in H as (_ & _ & _ & _ & _ & H). wenter HE. wpure. wcall HE. apply IHv; [lia|exact Hw|exact Hl|exact H|lia|lia|]. wfin. wnil. exact HR'.
  - pose proof (zlen_nn (sip005 v)). eapply (TAG a _ 8 "skip-some-ok-err"); [lia|exact H|lia|lia|reflexivity|erewrite FT by reflexivity; reflexivity| |exact HR].
    intros R' HR'. apply holds_cons in H as (_ & _ & _ & _ & _ & H). wenter HE. wpure. wcall HE. apply IHv; [lia|exact Hw|exact Hl|exact H|lia|lia|]. wfin. wnil. exact HR'.
  - match goal with |- wpf E _ _ _ _ => fold (sip005_fields) in * end. destruct (wire_fields_eq _ Hw) as (Hw1 & Hw2 & Hw3).
    eapply (TAG a _ 12 "skip-tuple"); [lia|exact H|rewrite zlen_app'; lia|lia|reflexivity|erewrite FT by reflexivity; reflexivity| |exact HR].
    intros R' HR'. rewrite zlen_app' in HR'. unfold zlen at 1 in H1. rewrite u32_len in H1. unfold zlen at 1 in HR'. rewrite u32_len in HR'.
    apply holds_cons in H as (_ & _ & _ & _ & _ & H). apply (skip_tuple_wp l); [assumption|lia|exact Hw1|exact Hw2|exact Hw3|exact Hl|exact H|lia|lia|]. fit HR'.
Qed.
End Skips.
End Skip.
