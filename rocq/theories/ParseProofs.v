(** * Proofs about parsing decimal strings. *)
From Coq Require Import ZArith String List Bool Lia.
Import ListNotations.
From Verif Require Import Wasm Std StdEnv WasmLogic WasmTac Spec SpecBytes ZBits Mem ArithProofs BitProofs MulProofs ConvProofs.
Open Scope Z_scope.

Notation M10 := 34028236692093846346337460743176821145 (only parsing).
Notation T10 := 1844674407370955161 (only parsing).

(** what the code computes, on lists of characters *)
Definition fin_char (c : Z) : option Z :=
  if (48 <=? c) && (c <=? 53) then Some (m128 - 6 + (c - 48)) else None.
Fixpoint go2 (v : Z) (s : list Z) : option Z :=
  match s with
  | [] => Some v
  | c :: r =>
      if is_digit c then
        let v' := 10 * v + (c - 48) in
        match r with
        | [] => Some v'
        | c2 :: _ => if v' <? M10 then go2 v' r else fin_char c2
        end
      else None
  end.
Fixpoint go1 (v : Z) (s : list Z) : option Z :=
  match s with
  | [] => Some v
  | c :: r =>
      if is_digit c then
        let v' := 10 * v + (c - 48) in
        match r with
        | [] => Some v'
        | _ => if v' <? T10 then go1 v' r else go2 v' r
        end
      else None
  end.

Definition vu (v : Z) : list val := [VI64 (v mod m64); VI64 (v / m64)].
Lemma vu_u128 v : vu v = u128 v.
Proof. unfold vu, u128. rewrite pow64. reflexivity. Qed.

Lemma is_digit_sub b : 0 <= b < 256 -> ((b - 48) mod m64 <? 10) = is_digit b.
Proof.
  intros. unfold is_digit. destruct (Z.leb_spec 48 b), (Z.leb_spec b 57), (Z.ltb_spec ((b - 48) mod m64) 10); simpl; try reflexivity; zlia.
Qed.
Lemma le5_sub b : 0 <= b < 256 -> ((b - 48) mod m64 <=? 5) = ((48 <=? b) && (b <=? 53)).
Proof.
  intros. destruct (Z.leb_spec 48 b), (Z.leb_spec b 53), (Z.leb_spec ((b - 48) mod m64) 5); simpl; try reflexivity; zlia.
Qed.
Lemma digit_small b : is_digit b = true -> (b - 48) mod m64 = b - 48 /\ 0 <= b - 48 < 10.
Proof. unfold is_digit. intros. split; zlia. Qed.

Lemma lt_limbs v : 0 <= v < m128 ->
  (if (if v / m64 =? T10 then true else false) then v mod m64 <? 11068046444225730969 else v / m64 <? T10) = (v <? M10).
Proof.
  intros. pose proof (Z.div_mod v m64 ltac:(lia)). pose proof (Z.mod_pos_bound v m64 ltac:(lia)).
  set (h := v / m64) in *. set (l := v mod m64) in *. clearbody h l.
  destruct (Z.eqb_spec h T10); [subst h|]; lia.
Qed.

Ltac conjs := repeat match goal with |- _ /\ _ => split end; try solve [auto | lia | congruence | tauto].

Section Parse.
Context {HS : Type} (E : env HS) (HE : has_std E).
Implicit Types (st : store HS) (R : result HS -> Prop).
Ltac wfin := unfold qcall, qblock, qfunc; wcbn.

(** [10 * v + d] on limbs, through mul-int128 and add-int128 *)
Lemma step128 v d :
  0 <= v -> 0 <= d < 10 -> 10 * v + d < m128 ->
  ((v mod m64 * 10) mod m64 + d) mod m64 = (10 * v + d) mod m64 /\
  (((v mod m64) * 0 + v / m64 * 10 + v mod m64 * 10 / m64) mod m64 + 0 + ((v mod m64 * 10) mod m64 + d) / m64) mod m64 = (10 * v + d) / m64.
Proof. intros. split; zlia. Qed.

Lemma string_to_uint_wp a s st R :
  holds (smem st) a s ->
  R (RVals (vopt vu (if (0 <? Z.of_nat (length s)) && (Z.of_nat (length s) <? 40) then go1 0 s else None)) st) ->
  wpf E "stdlib.string-to-uint" [VI32 a; vlen s] st R.
Proof.
  intros HB H. wenter HE. unfold vlen. set (n := Z.of_nat (length s)) in *. wpure.
  assert (Hn : 0 <= n <= m32). { destruct HB as (? & ? & _). subst n. lia. }
  wif Hc.
  { wpure. wret. destruct (Z.ltb_spec 0 n), (Z.ltb_spec n 40); cbn [andb] in H; try exact H. exfalso; zlia. }
  assert (Hn2 : 0 < n < 40) by zlia. clear Hc.
  destruct (Z.ltb_spec 0 n); [|lia]. destruct (Z.ltb_spec n 40); [|lia]. cbn [andb] in H.
  wnil.
  (* the digit-by-digit part with two limbs, from any point *)
  match goal with |- wp _ (_ :: ?rest) _ ?Q => set (REST := rest); set (QQ := Q) end.
  assert (L2 : forall v r a' ld, r <> [] -> holds (smem st) a' r -> Z.of_nat (length r) < m32 ->
     0 <= v -> v < M10 -> go2 v r = go1 0 s ->
     wp E REST (mkcfg [VI32 a'; VI32 (Z.of_nat (length r)); VI64 (v mod m64); VI64 (v / m64); VI64 ld] [] st) QQ).
  { subst REST. intros v r a' ld Hr HB' HL Hv1 Hv2 Hg. wpure. wif Hc.
    { destruct r; [contradiction|]. cbn [length] in Hc. lia. }
    wnil.
    eapply wp_loop0 with (z := Z.of_nat (length r))
     (I := fun z c => exists v r a' ld, r <> [] /\ holds (smem st) a' r /\ z = Z.of_nat (length r) /\ z < m32 /\
        0 <= v < M10 /\ go2 v r = go1 0 s /\
        c = mkcfg [VI32 a'; VI32 z; VI64 (v mod m64); VI64 (v / m64); VI64 ld] [] st).
    - lia.
    - exists v, r, a', ld. conjs.
    - clear v r a' ld Hr HB' HL Hv1 Hv2 Hg Hc.
      intros z ls st' Hz (v & r & a' & ld & Hr & HB' & Hzl & Hzm & Hv & Hg & Hs). injection Hs as -> ->.
      destruct r as [|c r]; [contradiction|]. clear Hr.
      apply holds_cons in HB' as (Hx1 & Hx2 & Hx3 & Hx4 & Hx5 & Hx).
      wpure. apply wp_load; [cbn; lia|]. wpure. cbn [ldn ldbytes]. rewrite !Z.add_0_r, Hx1.
      replace (c + 256 * 0) with c by lia. rewrite is_digit_sub by lia. cbn [go2] in Hg.
      wif Hd.
      2: { wpure. wret. subst QQ. wfin. rewrite Hd in Hg. rewrite <- Hg in H. exact H. }
      rewrite Hd in Hg. destruct (digit_small c Hd) as [Hd1 Hd2]. rewrite Hd1.
      wpure. wcall HE. apply mul_int128_wp; auto; try (unfold lim; zlia). wfin. wpure.
      wcall HE. apply add_int128_wp; auto; try (unfold lim; zlia). wfin. wpure. wnil.
      destruct (step128 v (c - 48)) as [S1 S2]; [lia|lia|lia|]. rewrite S1, S2. clear S1 S2.
      set (v' := 10 * v + (c - 48)) in *. assert (Hv' : 0 <= v' < m128) by lia. clearbody v'.
      cbn [length] in Hzl. rewrite Nat2Z.inj_succ in Hzl.
      assert (Hz1 : (z - 1) mod m32 = z - 1) by (apply Z.mod_small; lia). 
      wpure. rewrite Hz1.
      assert (Hlt : (if b2z (v' / m64 =? T10) =? 0 then b2z (v' / m64 <? T10) else b2z (v' mod m64 <? 11068046444225730969)) = b2z (v' <? M10)).
      { rewrite <- lt_limbs by auto. destruct (v' / m64 =? T10); reflexivity. }
      rewrite Hlt. clear Hlt.
      assert (Hand : forall x y, Z.land (b2z x) (b2z y) = b2z (x && y)) by (intros [|] [|]; reflexivity).
      rewrite Hand. wbrif Hb.
      + wnil. wpure. destruct r as [|c2 r].
        * cbn [length] in Hzl. replace (z - 1) with 0 by lia. change (0 =? 0) with true. wif Hw; [|discriminate].
          wpure. wnil. wnil. subst QQ. wfin. rewrite <- Hg in H. exact H.
        * cbn [length] in Hzl. rewrite Nat2Z.inj_succ in Hzl. wif Hw; [lia|].
          destruct (Z.ltb_spec v' M10); [lia|].
          apply holds_cons in Hx as (Hy1 & Hy2 & Hy3 & Hy4 & Hy5 & Hy).
          rewrite (Z.mod_small (a' + 1)) by lia.
          wpure. apply wp_load; [cbn; lia|]. wpure. cbn [ldn ldbytes]. rewrite !Z.add_0_r, Hy1.
          replace (c2 + 256 * 0) with c2 by lia. rewrite le5_sub by lia. unfold fin_char in Hg.
          wif Hd5.
          -- rewrite Hd5 in Hg. rewrite <- Hg in H. wpure. wnil. wnil. wnil. subst QQ. wfin. unfold vopt, vu in H.
             assert (Hc2 : 48 <= c2 <= 53) by lia. rconv H; clear - Hc2; zlia.
          -- rewrite Hd5 in Hg. rewrite <- Hg in H. wpure. wnil. wnil. wnil. subst QQ. wfin. exact H.
      + destruct r as [|c2 r]; [cbn [length] in Hzl; lia|].
        destruct (Z.ltb_spec v' M10); [|lia].
        exists (z - 1). split; [lia|]. exists v', (c2 :: r), (a' + 1), (c - 48).
        rewrite (Z.mod_small (a' + 1)).
        2: { destruct Hx as (? & ? & _). cbn [length] in *. lia. }
        conjs. }
  eapply wp_loop0 with (z := n)
     (I := fun z c => exists v r a' ld, r <> [] /\ holds (smem st) a' r /\ z = Z.of_nat (length r) /\ z < m32 /\
        0 <= v < T10 /\ go1 v r = go1 0 s /\
        c = mkcfg [VI32 a'; VI32 z; VI64 v; VI64 0; VI64 ld] [] st).
  - lia.
  - exists 0, s, a, 0. conjs. intros ->. cbn in Hn2. lia.
  - intros z ls st' Hz (v & r & a' & ld & Hr & HB' & Hzl & Hzm & Hv & Hg & Hs). injection Hs as -> ->.
    destruct r as [|c r]; [contradiction|]. clear Hr.
    apply holds_cons in HB' as (Hx1 & Hx2 & Hx3 & Hx4 & Hx5 & Hx).
    wpure. apply wp_load; [cbn; lia|]. wpure. cbn [ldn ldbytes]. rewrite !Z.add_0_r, Hx1.
    replace (c + 256 * 0) with c by lia. rewrite is_digit_sub by lia. cbn [go1] in Hg.
    wif Hd.
    2: { wpure. wret. subst QQ. wfin. rewrite Hd in Hg. rewrite <- Hg in H. exact H. }
    rewrite Hd in Hg. destruct (digit_small c Hd) as [Hd1 Hd2]. rewrite Hd1.
    wpure. wnil.
    assert (S1 : ((v * 10) mod m64 + (c - 48)) mod m64 = 10 * v + (c - 48)) by zlia. rewrite S1. clear S1.
    set (v' := 10 * v + (c - 48)) in *. assert (Hv' : 0 <= v' < m64) by lia. clearbody v'.
    cbn [length] in Hzl. rewrite Nat2Z.inj_succ in Hzl.
    assert (Hz1 : (z - 1) mod m32 = z - 1) by (apply Z.mod_small; lia).
    wpure. rewrite Hz1.
    assert (Hand : forall x y, Z.land (b2z x) (b2z y) = b2z (x && y)) by (intros [|] [|]; reflexivity).
    rewrite Hand. wbrif Hb.
    + wnil. destruct r as [|c2 r].
      * cbn [length] in Hzl. subst REST. replace (z - 1) with 0 by lia. wpure. change (0 =? 0) with true.
        wif Hw; [|discriminate]. wpure. wret. subst QQ. wfin. rewrite <- Hg in H. unfold vopt, vu in H. rconv H; clear - Hv'; zlia.
      * destruct (Z.ltb_spec v' T10); [cbn [length] in *; lia|].
        replace (z - 1) with (Z.of_nat (length (c2 :: r))) by lia.
        rewrite (Z.mod_small (a' + 1)).
        2: { destruct Hx as (? & ? & _). cbn [length] in *. lia. }
        specialize (L2 v' (c2 :: r) (a' + 1) (c - 48)).
        rewrite (Z.mod_small v' m64), (Z.div_small v' m64) in L2 by lia.
        apply L2; auto; try lia; congruence.
    + destruct r as [|c2 r]; [cbn [length] in Hzl; lia|].
      destruct (Z.ltb_spec v' T10); [|lia].
      exists (z - 1). split; [lia|]. exists v', (c2 :: r), (a' + 1), (c - 48).
      rewrite (Z.mod_small (a' + 1)).
      2: { destruct Hx as (? & ? & _). cbn [length] in *. lia. }
      conjs.
Qed.
(** UTF-8 *)
Lemma mkcfg_inj l1 l2 k (s1 s2 : store HS) : mkcfg l1 k s1 = mkcfg l2 k s2 -> l1 = l2 /\ s1 = s2.
Proof. intros H. split; [exact (f_equal (@clocals HS) H)|exact (f_equal (@cstore HS) H)]. Qed.
Lemma utf8_mem_len cs : Z.of_nat (length (utf8_mem cs)) = 4 * Z.of_nat (length cs).
Proof.
  unfold utf8_mem. induction cs as [|c cs IH]; [reflexivity|].
  cbn [flat_map length]. rewrite app_length, Nat2Z.inj_add, IH, Nat2Z.inj_succ. cbn [length be4]. lia.
Qed.
Lemma holds_u4 m a c cs : holds m a (utf8_mem (c :: cs)) -> 0 <= c < 2 ^ 32 ->
  ldn m a 4 = le_val (be4 c) /\ 0 <= a /\ a + 4 <= msize m /\ a + 4 <= m32 /\ holds m (a + 4) (utf8_mem cs).
Proof.
  intros H Hc. unfold utf8_mem in H. cbn [flat_map] in H. apply holds_app in H as [H1 H2].
  assert (L4 : Z.of_nat (length (be4 c)) = 4) by reflexivity. rewrite L4 in H2.
  destruct H1 as (A & B & C). rewrite L4 in B. change (length (be4 c)) with 4%nat in C.
  split; [rewrite ldn_le, C; reflexivity|]. split; [exact A|]. split; [lia|]. split; [|exact H2].
  change (2 ^ 32) with m32 in B. lia.
Qed.
Lemma u4_val c : 0 <= c < 2 ^ 32 -> 
  let v := le_val (be4 c) in v / 2 ^ 24 = c mod 256 /\ ((Z.land v 16777215 =? 0) = (c <? 256)).
Proof.
  intros Hc. cbv zeta. change 16777215 with (2 ^ 24 - 1). rewrite land_mask by lia. cbn [le_val be4].
  change (2 ^ 24) with 16777216. change (2 ^ 16) with 65536. change (2 ^ 8) with 256. change (2 ^ 32) with m32 in Hc.
  split; [zlia|].
  destruct (Z.eqb_spec ((c / 16777216 mod 256 + 256 * (c / 65536 mod 256 + 256 * (c / 256 mod 256 + 256 * (c mod 256 + 256 * 0)))) mod 16777216) 0), (Z.ltb_spec c 256); try reflexivity; exfalso; zlia.
Qed.
Lemma u4_shift c : 0 <= c < 2 ^ 32 -> le_val (be4 c) / 2 ^ (24 mod 64) = c mod 256.
Proof. intros. change (24 mod 64) with 24. apply u4_val; auto. Qed.
Lemma u4_digit c : 0 <= c < 2 ^ 32 ->
  Z.land (b2z (Z.land (le_val (be4 c)) 16777215 =? 0)) (b2z ((c mod 256 - 48) mod m64 <? 10)) = b2z (is_digit c).
Proof.
  intros H. destruct (u4_val c H) as [_ ->]. rewrite is_digit_sub by (apply Z.mod_pos_bound; lia). unfold is_digit.
  destruct (Z.ltb_spec c 256).
  - rewrite Z.mod_small by lia. destruct ((48 <=? c) && (c <=? 57)); reflexivity.
  - destruct (Z.leb_spec 48 c), (Z.leb_spec c 57); try lia. rewrite Z.land_0_l. reflexivity.
Qed.
Lemma u4_le5 c : 0 <= c < 2 ^ 32 ->
  Z.land (b2z (Z.land (le_val (be4 c)) 16777215 =? 0)) (b2z ((c mod 256 - 48) mod m64 <=? 5)) = b2z ((48 <=? c) && (c <=? 53)).
Proof.
  intros H. destruct (u4_val c H) as [_ ->]. rewrite le5_sub by (apply Z.mod_pos_bound; lia).
  destruct (Z.ltb_spec c 256).
  - rewrite Z.mod_small by lia. destruct ((48 <=? c) && (c <=? 53)); reflexivity.
  - destruct (Z.leb_spec 48 c), (Z.leb_spec c 53); try lia. rewrite Z.land_0_l. reflexivity.
Qed.
Lemma u4_small c : is_digit c = true -> (c mod 256 - 48) mod m64 = c - 48 /\ 0 <= c - 48 < 10.
Proof. unfold is_digit. intros. rewrite (Z.mod_small c) by lia. split; zlia. Qed.

Lemma utf8_to_uint_wp a s st R :
  Forall (fun c => 0 <= c < 2 ^ 32) s -> holds (smem st) a (utf8_mem s) ->
  R (RVals (vopt vu (if (0 <? Z.of_nat (length s)) && (Z.of_nat (length s) <? 40) then go1 0 s else None)) st) ->
  wpf E "stdlib.utf8-to-uint" [VI32 a; VI32 (4 * Z.of_nat (length s))] st R.
Proof.
  intros HF HB H. wenter HE. set (n := Z.of_nat (length s)) in *. wpure.
  assert (Hn : 0 <= 4 * n <= m32). { destruct HB as (? & ? & _). rewrite utf8_mem_len in *. subst n. lia. }
  wif Hc.
  { wpure. wret. destruct (Z.ltb_spec 0 n), (Z.ltb_spec n 40); cbn [andb] in H; try exact H. exfalso; zlia. }
  assert (Hn2 : 0 < n < 40) by zlia. clear Hc.
  destruct (Z.ltb_spec 0 n); [|lia]. destruct (Z.ltb_spec n 40); [|lia]. cbn [andb] in H.
  wnil.
  (* the digit-by-digit part with two limbs, from any point *)
  match goal with |- wp _ (_ :: ?rest) _ ?Q => set (REST := rest); set (QQ := Q) end.
  assert (L2 : forall v r a' ld, r <> [] -> (Forall (fun c => 0 <= c < 2 ^ 32) r /\ holds (smem st) a' (utf8_mem r)) -> 4 * Z.of_nat (length r) < m32 ->
     0 <= v -> v < M10 -> go2 v r = go1 0 s ->
     wp E REST (mkcfg [VI32 a'; VI32 (4 * Z.of_nat (length r)); VI64 (v mod m64); VI64 (v / m64); VI64 ld] [] st) QQ).
  { subst REST. intros v r a' ld Hr HB' HL Hv1 Hv2 Hg. wpure. wif Hc.
    { destruct r; [contradiction|]. cbn [length] in Hc. lia. }
    wnil.
    eapply wp_loop0 with (z := Z.of_nat (length r))
     (I := fun z c => exists v r a' ld, r <> [] /\ (Forall (fun c => 0 <= c < 2 ^ 32) r /\ holds (smem st) a' (utf8_mem r)) /\ z = Z.of_nat (length r) /\ 4 * z < m32 /\
        0 <= v < M10 /\ go2 v r = go1 0 s /\
        c = mkcfg [VI32 a'; VI32 (4 * z); VI64 (v mod m64); VI64 (v / m64); VI64 ld] [] st).
    - lia.
    - exists v, r, a', ld. conjs.
    - clear v r a' ld Hr HB' HL Hv1 Hv2 Hg Hc.
      intros z ls st' Hz (v & r & a' & ld & Hr & HB' & Hzl & Hzm & Hv & Hg & Hs). apply mkcfg_inj in Hs as [-> ->].
      destruct r as [|c r]; [contradiction|]. clear Hr.
      destruct HB' as (HF' & HB'). apply Forall_cons_iff in HF' as [Hx2 HFr].
    apply holds_u4 in HB' as (Hx1 & Hx3 & Hx4 & Hx5 & Hx); [|exact Hx2].
      wpure. apply wp_load; [cbn; lia|]. wpure. cbn [ldbytes]. rewrite !Z.add_0_r, Hx1, u4_shift by exact Hx2.
      rewrite u4_digit by lia. cbn [go2] in Hg.
      wif Hd.
      2: { wpure. wret. subst QQ. wfin. rewrite Hd in Hg. rewrite <- Hg in H. exact H. }
      rewrite Hd in Hg. destruct (u4_small c Hd) as [Hd1 Hd2]. rewrite Hd1.
      wpure. wcall HE. apply mul_int128_wp; auto; try (unfold lim; zlia). wfin. wpure.
      wcall HE. apply add_int128_wp; auto; try (unfold lim; zlia). wfin. wpure. wnil.
      destruct (step128 v (c - 48)) as [S1 S2]; [lia|lia|lia|]. rewrite S1, S2. clear S1 S2.
      set (v' := 10 * v + (c - 48)) in *. assert (Hv' : 0 <= v' < m128) by lia. clearbody v'.
      cbn [length] in Hzl. rewrite Nat2Z.inj_succ in Hzl.
      assert (Hz1 : (4 * z - 4) mod m32 = 4 * (z - 1)) by (rewrite Z.mod_small; lia). 
      wpure. rewrite Hz1.
      assert (Hlt : (if b2z (v' / m64 =? T10) =? 0 then b2z (v' / m64 <? T10) else b2z (v' mod m64 <? 11068046444225730969)) = b2z (v' <? M10)).
      { rewrite <- lt_limbs by auto. destruct (v' / m64 =? T10); reflexivity. }
      rewrite Hlt. clear Hlt.
      assert (Hand : forall x y, Z.land (b2z x) (b2z y) = b2z (x && y)) by (intros [|] [|]; reflexivity).
      rewrite Hand. wbrif Hb.
      + wnil. wpure. destruct r as [|c2 r].
        * cbn [length] in Hzl. replace (4 * (z - 1)) with 0 by lia. change (0 =? 0) with true. wif Hw; [|discriminate].
          wpure. wnil. wnil. subst QQ. wfin. rewrite <- Hg in H. exact H.
        * cbn [length] in Hzl. rewrite Nat2Z.inj_succ in Hzl. wif Hw; [lia|].
          destruct (Z.ltb_spec v' M10); [lia|].
          apply Forall_cons_iff in HFr as [Hy2 HFy].
          apply holds_u4 in Hx as (Hy1 & Hy3 & Hy4 & Hy5 & Hy); [|exact Hy2].
          rewrite (Z.mod_small (a' + 4)) by lia.
          wpure. apply wp_load; [cbn; lia|]. wpure. cbn [ldbytes]. rewrite !Z.add_0_r, Hy1, u4_shift by exact Hy2.
          rewrite u4_le5 by lia. unfold fin_char in Hg.
          wif Hd5.
          -- rewrite Hd5 in Hg. rewrite <- Hg in H. wpure. wnil. wnil. wnil. subst QQ. wfin. unfold vopt, vu in H.
             assert (Hc2 : 48 <= c2 <= 53) by lia. rconv H; clear - Hc2; zlia.
          -- rewrite Hd5 in Hg. rewrite <- Hg in H. wpure. wnil. wnil. wnil. subst QQ. wfin. exact H.
      + destruct r as [|c2 r]; [cbn [length] in Hzl; lia|].
        destruct (Z.ltb_spec v' M10); [|lia].
        exists (z - 1). split; [lia|]. exists v', (c2 :: r), (a' + 4), (c - 48).
        rewrite (Z.mod_small (a' + 4)).
        2: { destruct Hx as (? & ? & _). rewrite utf8_mem_len in *. cbn [length] in *. lia. }
        conjs. }
  eapply wp_loop0 with (z := n)
     (I := fun z c => exists v r a' ld, r <> [] /\ (Forall (fun c => 0 <= c < 2 ^ 32) r /\ holds (smem st) a' (utf8_mem r)) /\ z = Z.of_nat (length r) /\ 4 * z < m32 /\
        0 <= v < T10 /\ go1 v r = go1 0 s /\
        c = mkcfg [VI32 a'; VI32 (4 * z); VI64 v; VI64 0; VI64 ld] [] st).
  - lia.
  - exists 0, s, a, 0. conjs. intros ->. cbn in Hn2. lia.
  - intros z ls st' Hz (v & r & a' & ld & Hr & HB' & Hzl & Hzm & Hv & Hg & Hs). apply mkcfg_inj in Hs as [-> ->].
    destruct r as [|c r]; [contradiction|]. clear Hr.
    destruct HB' as (HF' & HB'). apply Forall_cons_iff in HF' as [Hx2 HFr].
    apply holds_u4 in HB' as (Hx1 & Hx3 & Hx4 & Hx5 & Hx); [|exact Hx2].
    wpure. apply wp_load; [cbn; lia|]. wpure. cbn [ldbytes]. rewrite !Z.add_0_r, Hx1, u4_shift by exact Hx2.
    rewrite u4_digit by lia. cbn [go1] in Hg.
    wif Hd.
    2: { wpure. wret. subst QQ. wfin. rewrite Hd in Hg. rewrite <- Hg in H. exact H. }
    rewrite Hd in Hg. destruct (u4_small c Hd) as [Hd1 Hd2]. rewrite Hd1.
    wpure. wnil.
    assert (S1 : ((v * 10) mod m64 + (c - 48)) mod m64 = 10 * v + (c - 48)) by zlia. rewrite S1. clear S1.
    set (v' := 10 * v + (c - 48)) in *. assert (Hv' : 0 <= v' < m64) by lia. clearbody v'.
    cbn [length] in Hzl. rewrite Nat2Z.inj_succ in Hzl.
    assert (Hz1 : (4 * z - 4) mod m32 = 4 * (z - 1)) by (rewrite Z.mod_small; lia).
    wpure. rewrite Hz1.
    assert (Hand : forall x y, Z.land (b2z x) (b2z y) = b2z (x && y)) by (intros [|] [|]; reflexivity).
    rewrite Hand. wbrif Hb.
    + wnil. destruct r as [|c2 r].
      * cbn [length] in Hzl. subst REST. replace (4 * (z - 1)) with 0 by lia. wpure. change (0 =? 0) with true.
        wif Hw; [|discriminate]. wpure. wret. subst QQ. wfin. rewrite <- Hg in H. unfold vopt, vu in H. rconv H; clear - Hv'; zlia.
      * destruct (Z.ltb_spec v' T10); [cbn [length] in *; lia|].
        replace (4 * (z - 1)) with (4 * Z.of_nat (length (c2 :: r))) by lia.
        rewrite (Z.mod_small (a' + 4)).
        2: { destruct Hx as (? & ? & _). rewrite utf8_mem_len in *. cbn [length] in *. lia. }
        specialize (L2 v' (c2 :: r) (a' + 4) (c - 48)).
        rewrite (Z.mod_small v' m64), (Z.div_small v' m64) in L2 by lia.
        apply L2; auto; try lia; congruence.
    + destruct r as [|c2 r]; [cbn [length] in Hzl; lia|].
      destruct (Z.ltb_spec v' T10); [|lia].
      exists (z - 1). split; [lia|]. exists v', (c2 :: r), (a' + 4), (c - 48).
      rewrite (Z.mod_small (a' + 4)).
      2: { destruct Hx as (? & ? & _). rewrite utf8_mem_len in *. cbn [length] in *. lia. }
      conjs.
Qed.
End Parse.
