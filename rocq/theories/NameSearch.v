(** * compare-clarity-names and bsearch-clarity-name (proof support), and the key table
    emitted for tuple deserialization. *)
From Coq Require Import ZArith String List Bool Lia Sorted.
Import ListNotations.
From Verif Require Import Wasm Std StdEnv WasmLogic WasmTac Spec SpecBytes ZBits Mem MemFacts ArithProofs BuffProofs ConvProofs PropBytes.
Open Scope string_scope.
Open Scope list_scope.
Open Scope Z_scope.

(** three-way comparison code: -1 as an i32, 0, 1 *)
Definition cmp_code (xs ys : list Z) : Z :=
  if first_diff xs ys =? 0 then
    (if (length xs <? length ys)%nat then 4294967295 else if (length xs =? length ys)%nat then 0 else 1)
  else if first_diff xs ys <? 0 then 4294967295 else 1.

Lemma first_diff_0_len xs : forall ys, first_diff xs ys = 0 -> length xs = length ys -> xs = ys.
Proof.
  induction xs as [|x xs IH]; intros [|y ys] H Hl; cbn [length] in Hl; try lia; [reflexivity|].
  cbn [first_diff] in H. destruct (Z.eqb_spec x y) as [->|]; [|lia]. f_equal. apply IH; [auto|lia].
Qed.
Lemma first_diff_refl xs : first_diff xs xs = 0.
Proof. induction xs; cbn [first_diff]; [reflexivity|]. rewrite Z.eqb_refl. auto. Qed.
Lemma cmp_code_cases m m' a b xs ys : holds m a xs -> holds m' b ys ->
  (cmp_code xs ys = 0 /\ xs = ys) \/ (cmp_code xs ys = 4294967295 /\ lex_lt xs ys) \/ (cmp_code xs ys = 1 /\ lex_lt ys xs).
Proof.
  intros HX HY. rewrite (lex_lt_iff _ _ _ _ _ _ HX HY), (lex_lt_iff _ _ _ _ _ _ HY HX), (first_diff_sym xs ys). unfold cmp_code.
  destruct (Z.eqb_spec (first_diff xs ys) 0) as [H0|H0].
  - destruct (Nat.ltb_spec (length xs) (length ys)); [right; left; split; [auto|right; lia]|].
    destruct (Nat.eqb_spec (length xs) (length ys)); [left; split; [auto|apply first_diff_0_len; auto]|right; right; split; [auto|right; lia]].
  - destruct (Z.ltb_spec (first_diff xs ys) 0); [right; left; split; [auto|left; lia]|right; right; split; [auto|left; lia]].
Qed.

Section Search.
Context {HS : Type} (E : env HS) (HE : has_std E).
Implicit Types (st : store HS) (R : result HS -> Prop).
Ltac wfin := unfold qcall, qblock, qfunc; wcbn.

Lemma compare_names_wp a xs b ys st R :
  holds (smem st) a xs -> holds (smem st) b ys -> xs <> [] -> ys <> [] ->
  R (RVals [VI32 (cmp_code xs ys)] st) ->
  wpf E "compare-clarity-names" [VI32 a; vlen xs; VI32 b; vlen ys] st R.
Proof.
  intros HX HY Nx Ny HR. unfold vlen. wenter HE. wpure.
  set (lx := Z.of_nat (length xs)) in *. set (ly := Z.of_nat (length ys)) in *.
  assert (Hm : (if b2z (lx <? ly) =? 0 then ly else lx) = Z.min lx ly).
  { rewrite b2z_eq0. destruct (Z.ltb_spec lx ly); cbn [negb]; lia. }
  assert (Hsel : forall c (x y : Z), (if c =? 0 then VI32 x else VI32 y) = VI32 (if c =? 0 then x else y)) by (intros; destruct (c =? 0); reflexivity).
  rewrite ?Hsel, Hm.
  assert (Hpos : 0 < Z.min lx ly) by (subst lx ly; destruct xs, ys; try contradiction; cbn [length]; lia).
  eapply wp_loop0 with (z := Z.min lx ly)
    (I := fun z s => exists xs' ys' oa' ob' w5 w6,
       s = mkcfg [VI32 oa'; VI32 lx; VI32 ob'; VI32 ly; VI32 z; w5; w6] [] st /\
       first_diff xs' ys' = first_diff xs ys /\
       z = Z.min (Z.of_nat (length xs')) (Z.of_nat (length ys')) /\ z <> 0 /\
       holds (smem st) oa' xs' /\ holds (smem st) ob' ys').
  { lia. }
  { exists xs, ys, a, b, (VI32 0), (VI32 0). split; [reflexivity|]. split; [reflexivity|]. split; [reflexivity|]. split; [lia|]. auto. }
  intros z ls st' Hz (xs' & ys' & oa & ob & w5 & w6 & Hs & Hd & Hz2 & Hnz & HX' & HY'). apply cfg_inj in Hs as (-> & ->).
  destruct xs' as [|x xs']; [simpl in *; lia|]. destruct ys' as [|y ys']; [simpl in *; lia|].
  cbn [length] in Hz2. rewrite !Nat2Z.inj_succ in Hz2.
  apply holds_cons in HX' as (Hx1 & Hx2 & Hx3 & Hx4 & Hx5 & Hx).
  apply holds_cons in HY' as (Hy1 & Hy2 & Hy3 & Hy4 & Hy5 & Hy).
  wpure. apply wp_load; [cbn; lia|]. wpure. apply wp_load; [cbn; lia|]. wpure.
  cbn [ldbytes ldval]. rewrite !ldn1, !Z.add_0_r, Hx1, Hy1. cbn [first_diff] in Hd.
  set (QL := qloop _ _ _ _ _ _ _).
  assert (TAIL : forall oa' ob' z', ((x =? y) = true -> first_diff xs ys = 0) ->
     QL (ONormal (mkcfg [VI32 oa'; VI32 lx; VI32 ob'; VI32 ly; VI32 z'; VI32 x; VI32 y] [] st))).
  { intros oa' ob' z' Heq. unfold QL. wfin. wpure. wnil. rconv HR. unfold cmp_code.
    rewrite !b2z_eq0, ?negb_involutive. destruct (Z.eqb_spec x y) as [->|Hne]; cbn [negb].
    - rewrite (Heq eq_refl). cbn [Z.eqb]. destruct (Z.ltb_spec lx ly), (Nat.ltb_spec (length xs) (length ys)); try (subst lx ly; lia); cbn [negb]; [reflexivity|].
      destruct (Z.eqb_spec lx ly), (Nat.eqb_spec (length xs) (length ys)); try (subst lx ly; lia); reflexivity.
    - rewrite <- Hd. rewrite (proj2 (Z.eqb_neq (x - y) 0)) by lia.
      destruct (Z.ltb_spec x y), (Z.ltb_spec (x - y) 0); try lia; reflexivity. }
  wif Hc.
  - wpure. assert (Hd0 : (z - 1) mod m32 = z - 1). { apply Z.mod_small. destruct Hx as (? & ? & _). lia. }
    rewrite Hd0. rewrite Hc in Hd. apply wp_brif_eqz; intros Hz1.
    + wnil. wnil. apply TAIL. intros _. rewrite <- Hd. destruct xs', ys'; try reflexivity. cbn [length] in *. lia.
    + unfold QL. wfin. exists (z - 1). split; [lia|].
      exists xs', ys', (oa + 1), (ob + 1), (VI32 x), (VI32 y).
      assert (B : oa + 1 < m32 /\ ob + 1 < m32).
      { destruct Hx as (? & ? & _); destruct Hy as (? & ? & _); destruct xs', ys'; cbn [length] in *; rewrite ?Nat2Z.inj_succ in *; lia. }
      rewrite !(Z.mod_small (_ + 1)) by lia. split; [reflexivity|]. split; [auto|]. split; [lia|]. auto.
  - wnil. wnil. apply TAIL. intros; congruence.
Qed.

(** what the search needs to know about the table *)
Definition key_row (m : mem) (base n : Z) (names : list (list Z)) : Prop :=
  forall i, (i < length names)%nat -> exists oi,
    ldn m (base + 4 + 4 * Z.of_nat i) 4 = oi /\
    rd m (base + 4 + 4 * n + Z.of_nat i) = Z.of_nat (length (nth i names [])) /\
    holds m oi (nth i names []).

Lemma bsearch_wp base ln names a e st R :
  let n := Z.of_nat (length names) in
  0 <= base -> base + 4 + 5 * n <= msize (smem st) -> msize (smem st) < m32 -> names <> [] ->
  ldn (smem st) base 4 = n -> key_row (smem st) base n names ->
  holds (smem st) a e -> e <> [] -> Forall (fun s => s <> []) names -> StronglySorted lex_lt names ->
  (forall i, (i < length names)%nat -> nth i names [] = e -> R (RVals [VI32 (Z.of_nat i)] st)) ->
  (~ In e names -> R (RVals [VI32 4294967295] st)) ->
  wpf E "stdlib.bsearch-clarity-name" [VI32 base; ln; VI32 a; vlen e] st R.
Proof.
  intros n Hb Hsz Hms Hne Hcnt Hrow He Hen Hnn Hsort RF RN. unfold vlen. wenter HE.
  assert (Hn1 : 1 <= n) by (subst n; destruct names; [contradiction|cbn [length]; lia]).
  wpure. apply wp_load; [cbn; lia|]. cbn [ldbytes ldval]. rewrite Z.add_0_r, Hcnt. wpure.
  rewrite (Z.mod_small (base + 4)) by lia. rewrite (Z.mod_small (n * 4)) by lia. rewrite (Z.mod_small (base + 4 + n * 4)) by lia.
  eapply wp_loop0 with (z := n)
    (I := fun z s => exists i j w7 w8, z = j - i /\ 0 <= i < j /\ j <= n /\
       s = mkcfg [VI32 (base + 4); ln; VI32 a; VI32 (Z.of_nat (length e)); VI32 (j - i); VI32 i; VI32 j; w7; w8; VI32 (base + 4 + n * 4)] [] st /\
       (forall k, (k < length names)%nat -> Z.of_nat k < i -> lex_lt (nth k names []) e) /\
       (forall k, (k < length names)%nat -> j <= Z.of_nat k -> lex_lt e (nth k names []))).
  { lia. }
  { exists 0, n, (VI32 0), (VI32 0). rewrite Z.sub_0_r. split; [reflexivity|]. split; [lia|]. split; [lia|]. split; [reflexivity|]. split; intros; lia. }
  intros z ls st' Hz (i & j & w7 & w8 & Hzij & Hij & Hjn & Hs & Hlo & Hhi). apply cfg_inj in Hs as (-> & ->).
  wpure. set (mid := i + (j - i) / 2).
  assert (Hmid : i <= mid < j) by (subst mid; zlia).
  rewrite !(Z.mod_small mid) by lia.
  rewrite (Z.mod_small (mid * 4)) by lia. rewrite (Z.mod_small (base + 4 + mid * 4)) by lia.
  apply wp_load; [cbn [ldbytes Z.of_nat Pos.of_succ_nat]; lia|]. cbn [ldbytes ldval]. wpure.
  rewrite (Z.mod_small (base + 4 + n * 4 + mid)) by lia.
  apply wp_load; [cbn [ldbytes Z.of_nat Pos.of_succ_nat]; lia|]. cbn [ldbytes ldval]. rewrite ldn1, !Z.add_0_r.
  assert (Hmn : (Z.to_nat mid < length names)%nat) by (subst n; lia).
  destruct (Hrow (Z.to_nat mid) Hmn) as (oi & Ho1 & Ho2 & Ho3). rewrite Z2Nat.id in Ho1, Ho2 by lia.
  replace (base + 4 + mid * 4) with (base + 4 + 4 * mid) by lia. replace (base + 4 + n * 4 + mid) with (base + 4 + 4 * n + mid) by lia.
  rewrite Ho1, Ho2. set (nm := nth (Z.to_nat mid) names []) in *.
  assert (Hnm : nm <> []) by (rewrite Forall_forall in Hnn; apply Hnn; apply nth_In; auto).
  assert (Hsorted : forall k l, (k < l)%nat -> (l < length names)%nat -> lex_lt (nth k names []) (nth l names [])).
  { clear - Hsort. induction Hsort as [|x l H1 IH HF]; intros k q Hk Hq; [cbn in Hq; lia|].
    destruct q as [|q]; [lia|]. cbn [length] in Hq. destruct k as [|k]; cbn [nth].
    - rewrite Forall_forall in HF. apply HF. apply nth_In. lia.
    - apply IH; lia. }
  wcall HE. apply (compare_names_wp a e oi nm); auto. wfin. wpure.
  destruct (cmp_code_cases _ _ _ _ e nm He Ho3) as [[C Hc]|[[C Hc]|[C Hc]]]; rewrite C.
  - wif Hx; [|discriminate Hx]. wpure. wret. rconv (RF (Z.to_nat mid) Hmn (eq_sym Hc)). rewrite Z2Nat.id by lia. reflexivity.
  - wif Hx; [discriminate Hx|]. wnil. wpure.
    change (b2z (4294967295 =? 4294967295) =? 0) with false. change (b2z (4294967295 =? 1) =? 0) with true. cbv iota.
    rewrite (Z.mod_small (mid - i)) by lia. wbrif Hlt; wfin.
    + wnil. wpure. wnil. apply RN. intros Hin. apply (In_nth _ _ []) in Hin as (k & Hk & Hke).
      assert (Hnk : lex_lt e (nth k names [])).
      { destruct (Z_lt_le_dec (Z.of_nat k) mid); [exfalso; specialize (Hlo k Hk ltac:(lia)); rewrite Hke in Hlo; apply (C08_lex_irrefl _ Hlo)|].
        destruct (Z.eq_dec (Z.of_nat k) mid) as [<-|]; [unfold nm in Hc; rewrite Nat2Z.id in Hc; exact Hc|].
        eapply C08_lex_trans; [exact Hc|]. apply Hsorted; lia. }
      rewrite Hke in Hnk. apply (C08_lex_irrefl _ Hnk).
    + exists (mid - i). split; [lia|]. exists i, mid, (VI32 mid), (VI32 4294967295). split; [lia|]. split; [lia|]. split; [lia|]. split; [reflexivity|].
      split; [exact Hlo|]. intros k Hk Hk2. destruct (Z.eq_dec (Z.of_nat k) mid) as [<-|]; [unfold nm in Hc; rewrite Nat2Z.id in Hc; exact Hc|].
      eapply C08_lex_trans; [exact Hc|]. apply Hsorted; lia.
  - wif Hx; [discriminate Hx|]. wnil. wpure.
    change (b2z (1 =? 4294967295) =? 0) with true. change (b2z (1 =? 1) =? 0) with false. cbv iota.
    rewrite (Z.mod_small (mid + 1)) by lia. rewrite (Z.mod_small (j - (mid + 1))) by lia. wbrif Hlt; wfin.
    + wnil. wpure. wnil. apply RN. intros Hin. apply (In_nth _ _ []) in Hin as (k & Hk & Hke).
      assert (Hnk : lex_lt (nth k names []) e).
      { destruct (Z_lt_le_dec (Z.of_nat k) j); [|exfalso; specialize (Hhi k Hk ltac:(lia)); rewrite Hke in Hhi; apply (C08_lex_irrefl _ Hhi)].
        destruct (Z.eq_dec (Z.of_nat k) mid) as [<-|]; [unfold nm in Hc; rewrite Nat2Z.id in Hc; exact Hc|].
        eapply C08_lex_trans; [|exact Hc]. apply Hsorted; lia. }
      rewrite Hke in Hnk. apply (C08_lex_irrefl _ Hnk).
    + exists (j - (mid + 1)). split; [lia|]. exists (mid + 1), j, (VI32 mid), (VI32 1). split; [lia|]. split; [lia|]. split; [lia|]. split; [reflexivity|].
      split; [|exact Hhi]. intros k Hk Hk2. destruct (Z.eq_dec (Z.of_nat k) mid) as [<-|]; [unfold nm in Hc; rewrite Nat2Z.id in Hc; exact Hc|].
      eapply C08_lex_trans; [|exact Hc]. apply Hsorted; lia.
Qed.
End Search.

(** ** The key table: /repo/clar2wasm/src/deserialize.rs 1019-1041 (the literal's bytes; [base] is
    the offset at which the literal is placed, [literal_memory_end]). *)
Definition le4 (n : Z) : list Z := [n mod 256; n / 256 mod 256; n / 65536 mod 256; n / 16777216 mod 256].
Fixpoint key_offsets (off : Z) (names : list (list Z)) : list Z :=
  match names with [] => [] | s :: r => off :: key_offsets (off + Z.of_nat (length s)) r end.
Definition key_table (base : Z) (names : list (list Z)) : list Z :=
  let n := Z.of_nat (length names) in
  le4 n ++ flat_map le4 (key_offsets (base + 4 + n * 5) names) ++ map (fun s => Z.of_nat (length s)) names ++ concat names.

Lemma ldn_le4 m a v : 0 <= v < m32 -> holds m a (le4 v) -> ldn m a 4 = v.
Proof.
  intros Hv H. apply holds_eq in H. cbn [length le4] in H. rewrite ldn_le, H. cbn [le4 le_val]. clear - Hv.
  replace (v / 65536) with (v / 256 / 256) by (rewrite Z.div_div by lia; reflexivity).
  replace (v / 16777216) with (v / 256 / 256 / 256) by (rewrite !Z.div_div by lia; reflexivity). zlia.
Qed.
Lemma len_flat_le4 l : length (flat_map le4 l) = (4 * length l)%nat.
Proof. induction l; [reflexivity|]. cbn [flat_map]. rewrite app_length, IHl. cbn [length le4]. lia. Qed.
Lemma len_key_offsets names : forall o, length (key_offsets o names) = length names.
Proof. induction names; intros; cbn [key_offsets length]; auto. Qed.
Lemma key_offsets_holds m names : forall o i, (i < length names)%nat -> holds m o (concat names) ->
  holds m (nth i (key_offsets o names) 0) (nth i names []).
Proof.
  induction names as [|s r IH]; intros o i Hi H; [cbn in Hi; lia|]. cbn [concat] in H. apply holds_app in H as [H1 H2].
  destruct i; cbn [nth key_offsets]; [exact H1|]. apply IH; [cbn in Hi; lia|exact H2].
Qed.
Lemma flat_le4_nth m l : forall a i, (i < length l)%nat -> holds m a (flat_map le4 l) -> holds m (a + 4 * Z.of_nat i) (le4 (nth i l 0)).
Proof.
  induction l as [|x l IH]; intros a i Hi H; [cbn in Hi; lia|]. cbn [flat_map] in H. apply holds_app in H as [H1 H2].
  destruct i; cbn [nth]. { rewrite Z.mul_0_r, Z.add_0_r. exact H1. }
  change (Z.of_nat (length (le4 x))) with 4 in H2. cbn [length] in Hi. specialize (IH _ i ltac:(lia) H2).
  replace (a + 4 * Z.of_nat (S i)) with (a + 4 + 4 * Z.of_nat i) by lia. exact IH.
Qed.
Lemma map_len_nth m names : forall a i, (i < length names)%nat -> holds m a (map (fun s => Z.of_nat (length s)) names) ->
  rd m (a + Z.of_nat i) = Z.of_nat (length (nth i names (@nil Z))).
Proof.
  induction names as [|x l IH]; intros a i Hi H; [cbn in Hi; lia|]. cbn [map] in H. apply holds_cons in H as (H1 & _ & _ & _ & _ & H2).
  destruct i; cbn [nth]. { rewrite Z.add_0_r. exact H1. }
  cbn [length] in Hi. specialize (IH _ i ltac:(lia) H2). rewrite <- IH. f_equal. lia.
Qed.
Lemma key_table_row m base names : msize m < m32 -> holds m base (key_table base names) ->
  ldn m base 4 = Z.of_nat (length names) /\ key_row m base (Z.of_nat (length names)) names /\ base + 4 + 5 * Z.of_nat (length names) <= msize m.
Proof.
  intros Hm32 H. pose proof (holds_len _ _ _ H) as (H0 & HL & Hms). unfold key_table in H, HL.
  set (n := Z.of_nat (length names)) in *.
  apply holds_app in H as [H1 H]. apply holds_app in H as [H2 H]. apply holds_app in H as [H3 H4].
  rewrite !app_length, len_flat_le4, len_key_offsets, map_length in HL. change (length (le4 n)) with 4%nat in HL.
  rewrite map_length in H4. rewrite len_flat_le4, len_key_offsets in H3, H4. change (Z.of_nat (length (le4 n))) with 4 in *.
  rewrite Nat2Z.inj_mul in H3, H4. change (Z.of_nat 4) with 4 in *. fold n in H3, H4.
  split; [apply ldn_le4; [lia|exact H1]|]. split; [|lia].
  intros i Hi. exists (nth i (key_offsets (base + 4 + n * 5) names) 0).
  replace (base + 4 + 4 * n + n) with (base + 4 + n * 5) in H4 by lia.
  assert (HH : holds m (nth i (key_offsets (base + 4 + n * 5) names) 0) (nth i names [])) by (apply key_offsets_holds; auto).
  split; [|split; [|exact HH]].
  - apply flat_le4_nth with (i := i) in H2; [|rewrite len_key_offsets; auto]. apply ldn_le4 in H2; [exact H2|].
    assert (Hoff : forall l o k, (k < length l)%nat -> o <= nth k (key_offsets o l) 0 <= o + Z.of_nat (length (concat l))).
    { clear. induction l as [|s r IH]; intros o k Hk; [cbn in Hk; lia|]. cbn [length] in Hk. cbn [concat]. rewrite app_length. destruct k; cbn [nth key_offsets]; [lia|].
      specialize (IH (o + Z.of_nat (length s)) k ltac:(lia)). lia. }
    specialize (Hoff names (base + 4 + n * 5) i Hi). destruct HH as (? & ? & _). 
    lia.
  - apply map_len_nth; auto.
Qed.
