(** * Proofs about printing integers in decimal. *)
From Coq Require Import ZArith String List Bool Lia.
Import ListNotations.
From Verif Require Import Wasm Std StdEnv WasmLogic WasmTac Spec SpecBytes ZBits Mem ArithProofs BitProofs MulProofs MulIntProofs DivProofs ConvProofs ParseProofs ParseIntProofs ParseSpecs.
Open Scope Z_scope.

(** memory as an array of [w]-byte words *)
Fixpoint units (m : mem) (a : Z) (w n : nat) : list Z :=
  match n with O => [] | S n => ldn m a w :: units m (a + Z.of_nat w) w n end.

Lemma units_len m a w n : length (units m a w n) = n.
Proof. revert a. induction n; simpl; auto. Qed.
Lemma units_nth m w n : forall a k, (k < n)%nat -> nth k (units m a w n) 0 = ldn m (a + Z.of_nat w * Z.of_nat k) w.
Proof.
  induction n as [|n IH]; intros a k Hk; [lia|]. destruct k as [|k]; cbn [units nth].
  - f_equal. lia.
  - rewrite IH by lia. f_equal. lia.
Qed.
Lemma units_ext m m' w n : forall a, (forall x, a <= x < a + Z.of_nat w * Z.of_nat n -> rd m x = rd m' x) ->
  units m a w n = units m' a w n.
Proof.
  induction n as [|n IH]; intros a H; [reflexivity|]. cbn [units]. f_equal.
  - apply ldn_ext. intros x Hx. apply H. nia.
  - apply IH. intros x Hx. apply H. nia.
Qed.
Lemma units_snoc m w n : forall a, units m a w (S n) = units m a w n ++ [ldn m (a + Z.of_nat w * Z.of_nat n) w].
Proof.
  induction n as [|n IH]; intros a.
  - cbn [units app]. do 2 f_equal. lia.
  - cbn [units app] in *. rewrite IH. do 4 f_equal. lia.
Qed.
Lemma units_of_nth m a w n us : length us = n ->
  (forall k, (k < n)%nat -> ldn m (a + Z.of_nat w * Z.of_nat k) w = nth k us 0) -> units m a w n = us.
Proof.
  intros Hl H. apply (nth_ext _ _ 0 0); [rewrite units_len; auto|].
  rewrite units_len. intros k Hk. rewrite units_nth by auto. auto.
Qed.
Lemma units1 m a n : units m a 1 n = bytes_at m a n.
Proof. revert a. induction n as [|n IH]; intros a; [reflexivity|]. cbn [units bytes_at ldn]. rewrite IH. f_equal. lia. Qed.

(** only the [n] bytes from [a] may differ *)
Notation same_out := only_changes.

Lemma same_out_refl m a n : same_out m m a n.
Proof. split; auto. Qed.
Lemma same_out_trans m1 m2 m3 a n a' n' b k : same_out m1 m2 a n -> same_out m2 m3 a' n' ->
  b <= a -> b <= a' -> a + n <= b + k -> a' + n' <= b + k -> same_out m1 m3 b k.
Proof. intros [H1 H2] [H3 H4] ? ? ? ?. split; [congruence|]. intros. rewrite H4, H2 by lia. reflexivity. Qed.
Lemma same_out_stn m a n v : same_out m (stn m a n v) a (Z.of_nat n).
Proof.
  split; [apply msize_stn|]. intros x Hx. rewrite rd_stn.
  destruct (Z.leb_spec a x), (Z.ltb_spec x (a + Z.of_nat n)); simpl; try reflexivity; lia.
Qed.

(** the digits [ds] (least significant first) of [n] have been written, [v] remains *)
Definition printed (n v : Z) (ds : list Z) (enc : Z -> Z) (m0 m : mem) (off : Z) (w : nat) : Prop :=
  n = v * 10 ^ Z.of_nat (length ds) + dec_value (rev ds) /\ forallb is_digit ds = true /\
  units m off w (length ds) = map enc ds /\ same_out m0 m off (Z.of_nat w * Z.of_nat (length ds)).

Lemma forallb_rev {A} (f : A -> bool) l : forallb f (rev l) = forallb f l.
Proof. induction l; simpl; [reflexivity|]. rewrite forallb_app, IHl. simpl. rewrite andb_true_r. apply andb_comm. Qed.

Lemma printed_step n v ds enc m0 m off w z : printed n v ds enc m0 m off w -> 0 <= v ->
  z mod 256 ^ Z.of_nat w = enc (48 + v mod 10) ->
  printed n (v / 10) (ds ++ [48 + v mod 10]) enc m0 (stn m (off + Z.of_nat w * Z.of_nat (length ds)) w z) off w.
Proof.
  intros (H1 & H2 & H3 & H4) Hv Hz. unfold printed.
  assert (HL : length (ds ++ [48 + v mod 10]) = S (length ds)) by (rewrite app_length; simpl; lia).
  pose proof (Z.mod_pos_bound v 10 ltac:(lia)). rewrite HL. split; [|split; [|split]].
  - rewrite rev_app_distr. cbn [rev app]. rewrite dec_cons, rev_length, Nat2Z.inj_succ, Z.pow_succ_r by lia.
    rewrite H1 at 1. pose proof (Z.div_mod v 10 ltac:(lia)). set (T := 10 ^ Z.of_nat (length ds)).
    replace v with (10 * (v / 10) + v mod 10) at 1 by lia. ring.
  - rewrite forallb_app, H2. cbn [forallb andb]. unfold is_digit. lia.
  - rewrite units_snoc, map_app. cbn [map]. rewrite ldn_stn_same, Hz. f_equal.
    rewrite <- H3. apply units_ext. intros x Hx. rewrite rd_stn.
    destruct (Z.leb_spec (off + Z.of_nat w * Z.of_nat (length ds)) x); [lia|reflexivity].
  - eapply same_out_trans; [exact H4|apply same_out_stn|..]; nia.
Qed.

Lemma dec_rev_nonneg ds : forallb is_digit ds = true -> 0 <= dec_value (rev ds).
Proof. intros H. rewrite <- forallb_rev in H. apply dec_bound in H. lia. Qed.

Lemma printed_len n v ds enc m0 m off w : printed n v ds enc m0 m off w -> 1 <= v -> n < m128 -> Z.of_nat (length ds) <= 38.
Proof.
  intros (H1 & H2 & _) Hv Hn. pose proof (dec_rev_nonneg ds H2).
  destruct (Z.le_gt_cases (Z.of_nat (length ds)) 38); [auto|exfalso].
  assert (10 ^ 39 <= 10 ^ Z.of_nat (length ds)) by (apply Z.pow_le_mono_r; lia).
  assert (m128 < 10 ^ 39) by reflexivity. nia.
Qed.

Lemma printed_canonical n v ds d enc m0 m off w :
  printed n 0 (ds ++ [d]) enc m0 m off w -> d = 48 + v mod 10 -> v / 10 = 0 -> 0 <= v -> (ds = [] \/ v <> 0) ->
  canonical_nat n (rev (ds ++ [d])).
Proof.
  intros (H1 & H2 & _) Hd Hv0 Hv Hor. split; [|split; [|split]].
  - rewrite rev_app_distr. discriminate.
  - rewrite forallb_rev. auto.
  - lia.
  - destruct Hor as [->|Hor]; [left; reflexivity|right]. rewrite rev_app_distr. cbn [rev app hd].
    pose proof (Z.div_mod v 10 ltac:(lia)). lia.
Qed.

Lemma printed0 n enc m off w : printed n n [] enc m m off w.
Proof. split; [change (dec_value (rev [])) with 0; change (10 ^ Z.of_nat (length (@nil Z))) with 1; lia|]. split; [reflexivity|]. split; [reflexivity|apply same_out_refl]. Qed.

Section Print.
Context {HS : Type} (E : env HS) (HE : has_std E).
Implicit Types (st : store HS) (R : result HS -> Prop).
Ltac wfin := unfold qcall, qblock, qfunc; wcbn.

(** in-place reversal of an array *)
Lemma reverse_wp lk sk (w : nat) l0 l1 l2 off L us (k : list val) st is Q :
  (lk = L32_8u /\ sk = S32_8 /\ w = 1%nat) \/ (lk = L32 /\ sk = S32 /\ w = 4%nat) ->
  (1 <= L)%nat -> Z.of_nat w <= off -> off + Z.of_nat w * Z.of_nat L <= msize (smem st) -> msize (smem st) + Z.of_nat w < m32 ->
  units (smem st) off w L = us ->
  (forall m' i' j', units m' off w L = rev us -> same_out (smem st) m' off (Z.of_nat w * Z.of_nat L) ->
     wp E is (mkcfg [l0; l1; l2; VI32 i'; VI32 j'] k (with_mem st m')) Q) ->
  wp E (Loop 0 0 [
    LGet 4; LGet 3; Load lk 0; LGet 3; LGet 4; Load lk 0; Store sk 0; Store sk 0;
    LGet 4; Const (VI32 (Z.of_nat w)); B32 Add; LTee 4; LGet 3; Const (VI32 (Z.of_nat w)); B32 Sub; LTee 3; R32 LtU;
    BrIf 0 ] :: is)
    (mkcfg [l0; l1; l2; VI32 (off + Z.of_nat w * (Z.of_nat L - 1)); VI32 off] k st) Q.
Proof.
  intros Hk HL Hoff Hmem Hm32 Hus HQ.
  set (m0 := smem st) in *. set (W := Z.of_nat w) in *.
  assert (HW : 1 <= W) by (destruct Hk as [(_ & _ & ->)|(_ & _ & ->)]; subst W; lia).
  assert (Hnth : forall q, (q < L)%nat -> ldn m0 (off + W * Z.of_nat q) w = nth q us 0).
  { intros q Hq. rewrite <- Hus. symmetry. apply units_nth. auto. }
  assert (Hul : length us = L) by (rewrite <- Hus; apply units_len).
  eapply wp_loop0 with (z := Z.of_nat L) (I := fun z c => exists t m i j, 
     0 <= t /\ z = Z.of_nat L - 2 * t /\ (t = 0 \/ 2 * t < Z.of_nat L - 1) /\
     i = off + W * (Z.of_nat L - 1 - t) /\ j = off + W * t /\
     same_out m0 m off (W * Z.of_nat L) /\
     (forall q, (q < L)%nat -> ldn m (off + W * Z.of_nat q) w =
        if (Z.of_nat q <? t) || (Z.of_nat L - 1 - t <? Z.of_nat q) then nth (L - 1 - q) us 0 else nth q us 0) /\
     c = mkcfg [l0; l1; l2; VI32 i; VI32 j] [] (with_mem st m)).
  - lia.
  - exists 0, m0, (off + W * (Z.of_nat L - 1)), off.
    split; [lia|]. split; [lia|]. split; [auto|]. split; [f_equal; lia|]. split; [lia|]. split; [apply same_out_refl|].
    split. { intros q Hq. rewrite Hnth by auto. destruct (Z.ltb_spec (Z.of_nat q) 0), (Z.ltb_spec (Z.of_nat L - 1 - 0) (Z.of_nat q)); try lia. reflexivity. }
    subst m0. destruct st; reflexivity.
  - intros z ls st' Hz (t & m & i & j & Ht0 & Hzt & Ht & Hi & Hj & HO & Harr & Hs).
    apply mkcfg_inj in Hs as [-> ->].
    destruct HO as [HO1 HO2].
    assert (Hb : forall x, 0 <= x < Z.of_nat L -> off + W * x + W <= msize m) by (intros; nia).
    set (ti := Z.of_nat L - 1 - t) in *.
    assert (Hti : t <= ti < Z.of_nat L \/ (t = 0 /\ ti = 0)) by lia.
    assert (Hlk : ldbytes lk = w /\ stbytes sk = w /\ (forall x, ldval lk x = VI32 x) /\ (forall x, stval sk (VI32 x) = Some x)).
    { destruct Hk as [(-> & -> & ->)|(-> & -> & ->)]; repeat split. }
    destruct Hlk as (K1 & K2 & K3 & K4).
    wpure. apply wp_load; [rewrite K1; fold W; subst i; cbn [smem with_mem]; rewrite Z.add_0_r; apply Hb; lia|].
    rewrite K1, K3. wpure. apply wp_load; [rewrite K1; fold W; subst j; cbn [smem with_mem]; rewrite Z.add_0_r; apply Hb; lia|].
    rewrite K1, K3. eapply wp_store; [apply K4|rewrite K2; fold W; subst i; cbn [smem with_mem]; rewrite Z.add_0_r; apply Hb; lia|].
    eapply wp_store; [apply K4|rewrite K2; fold W; subst j; cbn [smem with_mem]; rewrite msize_stn, Z.add_0_r; apply Hb; lia|].
    rewrite K2. cbn [smem with_mem]. rewrite !Z.add_0_r.
    set (vi := ldn m i w). set (vj := ldn m j w).
    set (m2 := stn (stn m i w vj) j w vi).
    change (with_mem (with_mem (with_mem st m) (stn m i w vj)) m2) with (with_mem st m2).
    assert (Hdisj : forall x y, x <> y -> off + W * x + W <= off + W * y \/ off + W * y + W <= off + W * x) by (intros; nia).
    assert (Harr2 : forall q, (q < L)%nat -> ldn m2 (off + W * Z.of_nat q) w =
        if (Z.of_nat q <? t + 1) || (Z.of_nat L - 1 - (t + 1) <? Z.of_nat q) then nth (L - 1 - q) us 0 else nth q us 0).
    { intros q Hq. pose proof (ldn_bound m i w) as Bi. pose proof (ldn_bound m j w) as Bj. fold vi in Bi. fold vj in Bj.
      assert (Evi : vi = nth (Z.to_nat ti) us 0).
      { subst vi. replace i with (off + W * Z.of_nat (Z.to_nat ti)) by (rewrite Z2Nat.id by lia; lia).
        rewrite Harr by lia. rewrite Z2Nat.id by lia.
        destruct (Z.ltb_spec ti t), (Z.ltb_spec ti ti); try lia. reflexivity. }
      assert (Evj : vj = nth (Z.to_nat t) us 0).
      { subst vj. replace j with (off + W * Z.of_nat (Z.to_nat t)) by (rewrite Z2Nat.id by lia; lia).
        rewrite Harr by lia. rewrite Z2Nat.id by lia.
        destruct (Z.ltb_spec t t), (Z.ltb_spec ti t); try lia. reflexivity. }
      subst m2. destruct (Z.eq_dec (Z.of_nat q) t) as [Eq|Nq].
      - rewrite Eq, <- Hj, ldn_stn_same, Z.mod_small, Evi by lia.
        destruct (Z.ltb_spec t (t + 1)); [|lia]. cbn [orb]. f_equal. lia.
      - rewrite ldn_stn_other.
        2: { fold W. rewrite Hj. destruct (Hdisj (Z.of_nat q) t Nq); [left|right]; lia. }
        destruct (Z.eq_dec (Z.of_nat q) ti) as [Eq|Nq2].
        + rewrite Eq, <- Hi, ldn_stn_same, Z.mod_small, Evj by lia.
          destruct (Z.ltb_spec (Z.of_nat L - 1 - (t + 1)) ti); [|lia]. rewrite orb_true_r. f_equal. lia.
        + rewrite ldn_stn_other.
          2: { fold W. rewrite Hi. destruct (Hdisj (Z.of_nat q) ti Nq2); [left|right]; lia. }
          rewrite Harr by auto.
          destruct (Z.ltb_spec (Z.of_nat q) t), (Z.ltb_spec ti (Z.of_nat q)), (Z.ltb_spec (Z.of_nat q) (t + 1)), (Z.ltb_spec (Z.of_nat L - 1 - (t + 1)) (Z.of_nat q)); try lia; reflexivity. }
    assert (HO' : same_out m0 m2 off (W * Z.of_nat L)).
    { eapply same_out_trans with (a := off) (n := W * Z.of_nat L); [split; eassumption| |lia|exact (Z.le_refl _)|lia|exact (Z.le_refl _)].
      subst m2. eapply same_out_trans; [apply same_out_stn|apply same_out_stn|..]; fold W; subst i j; nia. }
    clearbody m2. clear vi vj Harr.
    wpure. rewrite !Z.mod_small by (split; [|]; subst i j; nia).
    assert (Hcmp : (j + W <? i - W) = (2 * (t + 1) <? Z.of_nat L - 1)).
    { subst i j ti. destruct (Z.ltb_spec (2 * (t + 1)) (Z.of_nat L - 1)); [apply Z.ltb_lt; nia|apply Z.ltb_ge; nia]. }
    rewrite Hcmp. wbrif Hc.
    + wnil. apply HQ; [|exact HO']. apply units_of_nth; [rewrite rev_length; auto|].
      intros q Hq. fold W. rewrite Harr2 by auto. rewrite rev_nth by lia. rewrite Hul.
      replace (L - S q)%nat with (L - 1 - q)%nat by lia.
      destruct (Z.ltb_spec (Z.of_nat q) (t + 1)), (Z.ltb_spec (Z.of_nat L - 1 - (t + 1)) (Z.of_nat q)); cbn [orb]; try reflexivity.
      f_equal. lia.
    + exists (Z.of_nat L - 2 * (t + 1)). split; [lia|]. exists (t + 1), m2, (i - W), (j + W).
      split; [lia|]. split; [lia|]. split; [lia|]. split; [subst i ti; lia|]. split; [lia|]. split; [auto|]. split; [auto|]. reflexivity.
Qed.

Lemma with_mem_id st : with_mem st (smem st) = st.
Proof. destruct st; reflexivity. Qed.

Lemma uint_to_string_wp lo hi off st R :
  lim lo -> lim hi -> 1 <= off -> off + 39 <= msize (smem st) -> msize (smem st) + 4 < m32 ->
  (forall m' s, canonical_nat (lo + m64 * hi) s -> bytes_at m' off (length s) = s ->
     same_out (smem st) m' off (Z.of_nat (length s)) -> (length s <= 39)%nat ->
     R (RVals [VI32 off; VI32 (Z.of_nat (length s))] (with_mem st m'))) ->
  wpf E "stdlib.uint-to-string" [VI64 lo; VI64 hi; VI32 off] st R.
Proof.
  intros L1 L2 Hoff Hmem Hm32 HR. wenter HE. wpure. set (n := lo + m64 * hi) in *.
  assert (Hn : 0 <= n < m128) by (unfold lim in *; lia).
  match goal with |- wp _ (_ :: ?rest) _ ?Q => set (REST := rest); set (QQ := Q) end.
  assert (TAIL : forall v ds m, lim v -> printed n v ds (fun d => d) (smem st) m off 1 -> (ds = [] \/ v <> 0) ->
     wp E REST (mkcfg [VI64 v; VI64 0; VI32 off; VI32 (off + Z.of_nat (length ds)); VI32 off] [] (with_mem st m)) QQ).
  { intros v ds m Hv HP Hor. subst REST.
    eapply wp_loop0 with (z := v) (I := fun z c => exists ds m, lim z /\ printed n z ds (fun d => d) (smem st) m off 1 /\ (ds = [] \/ z <> 0) /\
       c = mkcfg [VI64 z; VI64 0; VI32 off; VI32 (off + Z.of_nat (length ds)); VI32 off] [] (with_mem st m)).
    - unfold lim in Hv. lia.
    - exists ds, m. auto.
    - clear v ds m Hv HP Hor. intros v ls st' Hv0 (ds & m & Hv & HP & Hor & Hs). apply mkcfg_inj in Hs as [-> ->].
      assert (Hlen : Z.of_nat (length ds) <= 38).
      { destruct Hor as [->|Hor]; [simpl; lia|]. eapply printed_len; [exact HP|unfold lim in Hv; lia|lia]. }
      assert (Hms : msize m = msize (smem st)) by (destruct HP as (_ & _ & _ & [? _]); auto).
      unfold lim in Hv.
      wpure. apply wp_divu64; [lia|]. wpure.
      assert (Hdig : ((v + (v / 10 * 18446744073709551606) mod m64) mod m64 + 48) mod m64 = 48 + v mod 10) by (clear - Hv; zlia).
      rewrite Hdig. eapply wp_store; [reflexivity|cbn [smem with_mem stbytes]; lia|].
      cbn [smem with_mem stbytes]. rewrite Z.add_0_r.
      pose proof (printed_step n v ds (fun d => d) (smem st) m off 1 (48 + v mod 10) HP ltac:(lia)) as HP'.
      change (Z.of_nat 1) with 1 in HP'. rewrite Z.mul_1_l in HP'.
      specialize (HP' ltac:(rewrite Z.mod_small; [reflexivity|pose proof (Z.mod_pos_bound v 10 ltac:(lia)); change (256 ^ 1) with 256; lia])).
      set (m1 := stn m (off + Z.of_nat (length ds)) 1 (48 + v mod 10)) in *.
      change (with_mem (with_mem st m) m1) with (with_mem st m1).
      assert (Hi : (off + Z.of_nat (length ds) + 1) mod m32 = off + Z.of_nat (length (ds ++ [48 + v mod 10]))).
      { rewrite app_length. cbn [length]. rewrite Z.mod_small; lia. }
      wpure. rewrite Hi. wbrif Hz.
      + (* all digits written: reverse *)
        assert (Hv10 : v / 10 = 0) by lia. rewrite Hv10 in HP'.
        pose proof (printed_canonical n v ds _ _ _ _ _ _ HP' eq_refl Hv10 ltac:(lia) Hor) as Hcan.
        set (ds' := ds ++ [48 + v mod 10]) in *. 
        assert (Hds' : (1 <= length ds' <= 39)%nat) by (subst ds'; rewrite app_length; simpl; lia).
        clearbody ds'. destruct HP' as (_ & _ & HU & HO). rewrite map_id in HU.
        wnil. wpure.
        rewrite (Z.mod_small (off + Z.of_nat (length ds') - off)) by lia.
        rewrite (Z.mod_small (off + Z.of_nat (length ds') - 1)) by lia.
        replace (off + Z.of_nat (length ds') - off) with (Z.of_nat (length ds')) by lia.
        replace (off + Z.of_nat (length ds') - 1) with (off + Z.of_nat 1 * (Z.of_nat (length ds') - 1)) by lia.
        assert (Hms1 : msize m1 = msize (smem st)) by apply HO.
        eapply (reverse_wp L32_8u S32_8 1 _ _ _ off (length ds') ds'); auto; try (cbn [smem with_mem]; lia).
        intros m' i' j' HU' HO'. cbn [smem with_mem] in HO'. wnil. subst QQ. wfin.
        change (with_mem (with_mem st m1) m') with (with_mem st m').
        specialize (HR m' (rev ds') Hcan). rewrite rev_length in HR. apply HR; try lia.
        * rewrite <- units1. exact HU'.
        * eapply same_out_trans; [exact HO|exact HO'|..]; lia.
      + exists (v / 10). split; [clear - Hv Hz; zlia|]. exists (ds ++ [48 + v mod 10]), m1.
        split; [unfold lim; clear - Hv; zlia|]. split; [exact HP'|]. split; [right; lia|]. reflexivity. }
  wif Hc.
  - eapply wp_loop0 with (z := n) (I := fun z c => exists ds m lo hi, lim lo /\ lim hi /\ z = lo + m64 * hi /\ hi <> 0 /\
       printed n z ds (fun d => d) (smem st) m off 1 /\
       c = mkcfg [VI64 lo; VI64 hi; VI32 off; VI32 (off + Z.of_nat (length ds)); VI32 off] [] (with_mem st m)).
    + lia.
    + exists [], (smem st), lo, hi. rewrite with_mem_id. cbn [length]. change (Z.of_nat 0) with 0. rewrite Z.add_0_r.
      split; [auto|]. split; [auto|]. split; [auto|]. split; [lia|]. split; [apply printed0|]. reflexivity.
    + clearbody n. clear lo hi L1 L2 Hc HR. intros v ls st' Hv0 (ds & m & lo & hi & L1 & L2 & Hv & Hhi & HP & Hs). apply mkcfg_inj in Hs as [-> ->].
      assert (Hlen : Z.of_nat (length ds) <= 38).
      { eapply printed_len; [exact HP|unfold lim in *; lia|lia]. }
      assert (Hms : msize m = msize (smem st)) by (destruct HP as (_ & _ & _ & [? _]); auto).
      wpure. wcall HE. apply (div_int128_wp E HE); auto; try (unfold lim; lia).
      change (10 + m64 * 0) with 10. rewrite <- Hv. change (10 =? 0) with false. cbv iota. wfin.
      unfold u128. rewrite pow64.
      pose proof (Z.mod_pos_bound v 10 ltac:(lia)) as Hm10.
      rewrite (Z.mod_small (v mod 10)) by lia.
      cbn [app rev]. wpure. rewrite (Z.mod_small (v mod 10 + 48)) by lia. rewrite (Z.add_comm (v mod 10) 48).
      eapply wp_store; [reflexivity|cbn [smem with_mem stbytes]; lia|].
      cbn [smem with_mem stbytes]. rewrite Z.add_0_r.
      pose proof (printed_step n v ds (fun d => d) (smem st) m off 1 (48 + v mod 10) HP ltac:(lia)) as HP'.
      change (Z.of_nat 1) with 1 in HP'. rewrite Z.mul_1_l in HP'.
      specialize (HP' ltac:(rewrite Z.mod_small; [reflexivity|change (256 ^ 1) with 256; lia])).
      set (m1 := stn m (off + Z.of_nat (length ds)) 1 (48 + v mod 10)) in *.
      change (with_mem (with_mem st m) m1) with (with_mem st m1).
      assert (Hi : (off + Z.of_nat (length ds) + 1) mod m32 = off + Z.of_nat (length (ds ++ [48 + v mod 10]))).
      { rewrite app_length. cbn [length]. rewrite Z.mod_small; lia. }
      unfold lim in *.
      wpure. rewrite Hi. wbrif Hz.
      * wnil. wnil. assert (Hh0 : v / 10 / m64 = 0) by lia. rewrite Hh0.
        assert (Hq : 0 < v / 10 < m64) by (clear - Hh0 Hv L1 L2 Hhi; zlia).
        rewrite (Z.mod_small (v / 10)) by lia. apply TAIL; [unfold lim; lia|exact HP'|right; lia].
      * exists (v / 10). split; [clear - Hv Hhi L1 L2; zlia|]. exists (ds ++ [48 + v mod 10]), m1, ((v / 10) mod m64), (v / 10 / m64).
        split; [clear; zlia|]. split; [clear - Hv L1 L2; zlia|]. split; [clear; zlia|]. split; [lia|]. split; [exact HP'|]. reflexivity.
  - wnil. assert (hi = 0) by lia. subst hi. specialize (TAIL lo [] (smem st) L1). rewrite with_mem_id in TAIL.
    cbn [length] in TAIL. change (Z.of_nat 0) with 0 in TAIL. rewrite Z.add_0_r in TAIL. apply TAIL; [|auto].
    replace lo with n by lia. apply printed0.
Qed.
(** UTF-8 printing *)
Definition e24 (d : Z) : Z := d * 2 ^ 24.
Lemma e24_shl d : 0 <= d < 256 -> (d * 2 ^ 24) mod m64 = e24 d.
Proof. intros. unfold e24. apply Z.mod_small. change (2 ^ 24) with 16777216. lia. Qed.

Lemma le_val_inj xs : forall ys, Forall (fun b => 0 <= b < 256) xs -> Forall (fun b => 0 <= b < 256) ys ->
  length xs = length ys -> le_val xs = le_val ys -> xs = ys.
Proof.
  induction xs as [|x xs IH]; intros [|y ys] Hx Hy Hl He; try discriminate; [reflexivity|].
  apply Forall_cons_iff in Hx as [Hx Hxs]. apply Forall_cons_iff in Hy as [Hy Hys].
  cbn [le_val] in He. assert (x = y /\ le_val xs = le_val ys) as [-> He'] by lia.
  f_equal. apply IH; auto.
Qed.
Lemma cons_inj {A} (x y : A) xs ys : x :: xs = y :: ys -> x = y /\ xs = ys.
Proof. intros H. split; congruence. Qed.
Lemma be4_bytes c : Forall (fun b => 0 <= b < 256) (be4 c).
Proof. unfold be4. repeat constructor; apply Z.mod_pos_bound; lia. Qed.

Lemma units4_bytes m s : forallb is_digit s = true -> forall a, units m a 4 (length s) = map e24 s -> bytes_at m a (4 * length s) = utf8_mem s.
Proof.
  induction s as [|c s IH]; intros Hd a H; [reflexivity|].
  cbn [forallb] in Hd. apply andb_true_iff in Hd as [Hc Hd]. destruct (digit_small c Hc) as [_ Hc2].
  cbn [length units map] in H. apply cons_inj in H as [H1 H2].
  replace (4 * length (c :: s))%nat with (4 + 4 * length s)%nat by (cbn [length]; lia).
  rewrite bytes_at_app. unfold utf8_mem. cbn [flat_map]. f_equal; [|apply IH; auto].
  apply le_val_inj; auto using bytes_at_byte, be4_bytes.
  rewrite <- ldn_le. rewrite H1. unfold e24. cbn [be4 le_val].
  change (2 ^ 24) with 16777216. change (2 ^ 16) with 65536. change (2 ^ 8) with 256. zlia.
Qed.

Lemma uint_to_utf8_wp lo hi off st R :
  lim lo -> lim hi -> 4 <= off -> off + 156 <= msize (smem st) -> msize (smem st) + 4 < m32 ->
  (forall m' s, canonical_nat (lo + m64 * hi) s -> bytes_at m' off (4 * length s) = utf8_mem s ->
     same_out (smem st) m' off (4 * Z.of_nat (length s)) -> (length s <= 39)%nat ->
     R (RVals [VI32 off; VI32 (4 * Z.of_nat (length s))] (with_mem st m'))) ->
  wpf E "stdlib.uint-to-utf8" [VI64 lo; VI64 hi; VI32 off] st R.
Proof.
  intros L1 L2 Hoff Hmem Hm32 HR. wenter HE. wpure. set (n := lo + m64 * hi) in *.
  assert (Hn : 0 <= n < m128) by (unfold lim in *; lia).
  match goal with |- wp _ (_ :: ?rest) _ ?Q => set (REST := rest); set (QQ := Q) end.
  assert (TAIL : forall v ds m, lim v -> printed n v ds e24 (smem st) m off 4 -> (ds = [] \/ v <> 0) ->
     wp E REST (mkcfg [VI64 v; VI64 0; VI32 off; VI32 (off + 4 * Z.of_nat (length ds)); VI32 off] [] (with_mem st m)) QQ).
  { intros v ds m Hv HP Hor. subst REST.
    eapply wp_loop0 with (z := v) (I := fun z c => exists ds m, lim z /\ printed n z ds e24 (smem st) m off 4 /\ (ds = [] \/ z <> 0) /\
       c = mkcfg [VI64 z; VI64 0; VI32 off; VI32 (off + 4 * Z.of_nat (length ds)); VI32 off] [] (with_mem st m)).
    - unfold lim in Hv. lia.
    - exists ds, m. auto.
    - clear v ds m Hv HP Hor. intros v ls st' Hv0 (ds & m & Hv & HP & Hor & Hs). apply mkcfg_inj in Hs as [-> ->].
      assert (Hlen : Z.of_nat (length ds) <= 38).
      { destruct Hor as [->|Hor]; [simpl; lia|]. eapply printed_len; [exact HP|unfold lim in Hv; lia|lia]. }
      assert (Hms : msize m = msize (smem st)) by (destruct HP as (_ & _ & _ & [? _]); auto).
      unfold lim in Hv.
      wpure. apply wp_divu64; [lia|]. wpure.
      assert (Hdig : ((v + (v / 10 * 18446744073709551606) mod m64) mod m64 + 48) mod m64 = 48 + v mod 10) by (clear - Hv; zlia).
      rewrite Hdig. rewrite e24_shl by (pose proof (Z.mod_pos_bound v 10 ltac:(lia)); lia). eapply wp_store; [reflexivity|cbn [smem with_mem stbytes]; lia|].
      cbn [smem with_mem stbytes]. rewrite Z.add_0_r.
      pose proof (printed_step n v ds e24 (smem st) m off 4 (e24 (48 + v mod 10)) HP ltac:(lia)) as HP'.
      change (Z.of_nat 4) with 4 in HP'.
      specialize (HP' ltac:(rewrite Z.mod_small; [reflexivity|pose proof (Z.mod_pos_bound v 10 ltac:(lia)); unfold e24; change (256 ^ 4) with m32; change (2 ^ 24) with 16777216; lia])).
      set (m1 := stn m (off + 4 * Z.of_nat (length ds)) 4 (e24 (48 + v mod 10))) in *.
      change (with_mem (with_mem st m) m1) with (with_mem st m1).
      assert (Hi : (off + 4 * Z.of_nat (length ds) + 4) mod m32 = off + 4 * Z.of_nat (length (ds ++ [48 + v mod 10]))).
      { rewrite app_length. cbn [length]. rewrite Z.mod_small; lia. }
      wpure. rewrite Hi. wbrif Hz.
      + (* all digits written: reverse *)
        assert (Hv10 : v / 10 = 0) by lia. rewrite Hv10 in HP'.
        pose proof (printed_canonical n v ds _ _ _ _ _ _ HP' eq_refl Hv10 ltac:(lia) Hor) as Hcan.
        set (ds' := ds ++ [48 + v mod 10]) in *. 
        assert (Hds' : (1 <= length ds' <= 39)%nat) by (subst ds'; rewrite app_length; simpl; lia).
        clearbody ds'. destruct HP' as (_ & _ & HU & HO). 
        wnil. wpure.
        rewrite (Z.mod_small (off + 4 * Z.of_nat (length ds') - off)) by lia.
        rewrite (Z.mod_small (off + 4 * Z.of_nat (length ds') - 4)) by lia.
        replace (off + 4 * Z.of_nat (length ds') - off) with (4 * Z.of_nat (length ds')) by lia.
        replace (off + 4 * Z.of_nat (length ds') - 4) with (off + Z.of_nat 4 * (Z.of_nat (length ds') - 1)) by lia.
        assert (Hms1 : msize m1 = msize (smem st)) by apply HO.
        eapply (reverse_wp L32 S32 4 _ _ _ off (length ds') (map e24 ds')); auto; try (cbn [smem with_mem]; lia).
        intros m' i' j' HU' HO'. cbn [smem with_mem] in HO'. wnil. subst QQ. wfin.
        change (with_mem (with_mem st m1) m') with (with_mem st m').
        specialize (HR m' (rev ds') Hcan). rewrite rev_length in HR. apply HR; try lia.
        * rewrite <- map_rev in HU'. rewrite <- (rev_length ds'). apply units4_bytes; [apply Hcan|rewrite rev_length; exact HU'].
        * eapply same_out_trans; [exact HO|exact HO'|..]; lia.
      + exists (v / 10). split; [clear - Hv Hz; zlia|]. exists (ds ++ [48 + v mod 10]), m1.
        split; [unfold lim; clear - Hv; zlia|]. split; [exact HP'|]. split; [right; lia|]. reflexivity. }
  wif Hc.
  - eapply wp_loop0 with (z := n) (I := fun z c => exists ds m lo hi, lim lo /\ lim hi /\ z = lo + m64 * hi /\ hi <> 0 /\
       printed n z ds e24 (smem st) m off 4 /\
       c = mkcfg [VI64 lo; VI64 hi; VI32 off; VI32 (off + 4 * Z.of_nat (length ds)); VI32 off] [] (with_mem st m)).
    + lia.
    + exists [], (smem st), lo, hi. rewrite with_mem_id. cbn [length]. change (Z.of_nat 0) with 0. rewrite Z.add_0_r.
      split; [auto|]. split; [auto|]. split; [auto|]. split; [lia|]. split; [apply printed0|]. reflexivity.
    + clearbody n. clear lo hi L1 L2 Hc HR. intros v ls st' Hv0 (ds & m & lo & hi & L1 & L2 & Hv & Hhi & HP & Hs). apply mkcfg_inj in Hs as [-> ->].
      assert (Hlen : Z.of_nat (length ds) <= 38).
      { eapply printed_len; [exact HP|unfold lim in *; lia|lia]. }
      assert (Hms : msize m = msize (smem st)) by (destruct HP as (_ & _ & _ & [? _]); auto).
      wpure. wcall HE. apply (div_int128_wp E HE); auto; try (unfold lim; lia).
      change (10 + m64 * 0) with 10. rewrite <- Hv. change (10 =? 0) with false. cbv iota. wfin.
      unfold u128. rewrite pow64.
      pose proof (Z.mod_pos_bound v 10 ltac:(lia)) as Hm10.
      rewrite (Z.mod_small (v mod 10)) by lia.
      cbn [app rev]. wpure. rewrite (Z.mod_small (v mod 10 + 48)) by lia. rewrite (Z.add_comm (v mod 10) 48). rewrite e24_shl by lia.
      eapply wp_store; [reflexivity|cbn [smem with_mem stbytes]; lia|].
      cbn [smem with_mem stbytes]. rewrite Z.add_0_r.
      pose proof (printed_step n v ds e24 (smem st) m off 4 (e24 (48 + v mod 10)) HP ltac:(lia)) as HP'.
      change (Z.of_nat 4) with 4 in HP'.
      specialize (HP' ltac:(rewrite Z.mod_small; [reflexivity|unfold e24; change (256 ^ 4) with m32; change (2 ^ 24) with 16777216; lia])).
      set (m1 := stn m (off + 4 * Z.of_nat (length ds)) 4 (e24 (48 + v mod 10))) in *.
      change (with_mem (with_mem st m) m1) with (with_mem st m1).
      assert (Hi : (off + 4 * Z.of_nat (length ds) + 4) mod m32 = off + 4 * Z.of_nat (length (ds ++ [48 + v mod 10]))).
      { rewrite app_length. cbn [length]. rewrite Z.mod_small; lia. }
      unfold lim in *.
      wpure. rewrite Hi. wbrif Hz.
      * wnil. wnil. assert (Hh0 : v / 10 / m64 = 0) by lia. rewrite Hh0.
        assert (Hq : 0 < v / 10 < m64) by (clear - Hh0 Hv L1 L2 Hhi; zlia).
        rewrite (Z.mod_small (v / 10)) by lia. apply TAIL; [unfold lim; lia|exact HP'|right; lia].
      * exists (v / 10). split; [clear - Hv Hhi L1 L2; zlia|]. exists (ds ++ [48 + v mod 10]), m1, ((v / 10) mod m64), (v / 10 / m64).
        split; [clear; zlia|]. split; [clear - Hv L1 L2; zlia|]. split; [clear; zlia|]. split; [lia|]. split; [exact HP'|]. reflexivity.
  - wnil. assert (hi = 0) by lia. subst hi. specialize (TAIL lo [] (smem st) L1). rewrite with_mem_id in TAIL.
    cbn [length] in TAIL. change (Z.of_nat 0) with 0 in TAIL. rewrite Z.add_0_r in TAIL. apply TAIL; [|auto].
    replace lo with n by lia. apply printed0.
Qed.

Definition sx (lo hi : Z) : Z := lo + m64 * (if hi <? h64 then hi else hi - m64).

Lemma neg_limbs_val lo hi : lim lo -> lim hi -> h64 <= hi -> ~ (lo = 0 /\ hi = h64) ->
  let l := (0 - lo) mod m64 in let h := (0 - (hi + b2z (negb (lo =? 0))) mod m64) mod m64 in
  lim l /\ lim h /\ l + m64 * h = - sx lo hi.
Proof.
  unfold lim, sx. intros H1 H2 H3 H4. cbv zeta. destruct (Z.ltb_spec hi h64); [lia|].
  destruct (Z.eqb_spec lo 0); cbn [negb b2z]; repeat split; zlia.
Qed.

Lemma int_to_string_wp lo hi off st R :
  lim lo -> lim hi -> 1 <= off -> off + 40 <= msize (smem st) -> msize (smem st) + 4 < m32 ->
  (forall m' s, canonical (sx lo hi) s -> bytes_at m' off (length s) = s ->
     same_out (smem st) m' off (Z.of_nat (length s)) -> (length s <= 40)%nat ->
     R (RVals [VI32 off; VI32 (Z.of_nat (length s))] (with_mem st m'))) ->
  wpf E "stdlib.int-to-string" [VI64 lo; VI64 hi; VI32 off] st R.
Proof.
  intros L1 L2 Hoff Hmem Hm32 HR. wenter HE. wpure. rewrite sgn64_lt0 by auto. wif Hc.
  - wpure. eapply wp_store; [reflexivity|cbn [stbytes]; lia|]. cbn [stbytes]. rewrite Z.add_0_r.
    set (m1 := stn (smem st) off 1 45). wpure. wnil. rewrite (Z.mod_small (off + 1)) by lia.
    assert (HO1 : same_out (smem st) m1 off 1) by apply same_out_stn.
    assert (Hrd : rd m1 off = 45).
    { subst m1. rewrite rd_stn, Z.leb_refl. destruct (Z.ltb_spec off (off + Z.of_nat 1)); [|lia].
      cbn [andb]. rewrite Z.sub_diag. reflexivity. }
    clearbody m1.
    wpure.
    match goal with |- wp _ (_ :: ?rest) _ ?Q => set (REST := rest); set (QQ := Q) end.
    assert (TAIL : forall m' s, canonical_nat (- sx lo hi) s -> bytes_at m' (off + 1) (length s) = s ->
       same_out m1 m' (off + 1) (Z.of_nat (length s)) -> (length s <= 39)%nat ->
       wp E REST (mkcfg [VI64 lo; VI64 hi; VI32 (off + 1); VI32 (b2z (h64 <=? hi)); VI32 0] [VI32 (Z.of_nat (length s)); VI32 (off + 1)] (with_mem st m')) QQ).
    { intros m' s HC HB HO Hl. rewrite Hc. subst REST. cbn [b2z]. wpure. wnil. subst QQ. wfin. cbn [rev app].
      specialize (HR m' (45 :: s)). cbn [length] in HR.
      rewrite (Z.mod_small (off + 1 - 1)), (Z.mod_small (Z.of_nat (length s) + 1)) by lia.
      replace (off + 1 - 1) with off by lia. replace (Z.of_nat (length s) + 1) with (Z.of_nat (S (length s))) by lia.
      apply HR; try lia.
      - right. split; [unfold sx, lim in *; destruct (Z.ltb_spec hi h64); lia|]. exists s; auto.
      - cbn [bytes_at]. rewrite HB. f_equal. destruct HO as [_ HO]. rewrite HO by lia. auto.
      - eapply same_out_trans; [exact HO1|exact HO|..]; lia. }
    assert (Hms : msize m1 = msize (smem st)) by apply HO1.
    assert (Hsel : (if b2z (hi =? h64) =? 0 then b2z (sgn64 0 <=? sgn64 hi) else b2z (lo =? 0)) = b2z ((lo =? 0) && (hi =? h64))).
    { rewrite b2z_eq0. unfold sgn64, lim in *. change (0 <? h64) with true. cbv iota. destruct (Z.ltb_spec hi h64); [lia|].
      destruct (Z.eqb_spec hi h64); cbn [negb]; rewrite ?andb_true_r, ?andb_false_r; [reflexivity|].
      destruct (Z.leb_spec 0 (hi - m64)); [lia|reflexivity]. }
    rewrite Hsel. wif Hm.
    + wpure. wcall HE. apply uint_to_string_wp; auto; try (cbn [smem with_mem]; lia).
      intros m' s HC HB HO Hl. wfin. cbn [rev app]. wnil. apply TAIL; auto.
      replace (- sx lo hi) with (lo + m64 * hi); auto. unfold sx. destruct (Z.ltb_spec hi h64); lia.
    + wpure. wcall HE. destruct (neg_limbs_val lo hi L1 L2) as (N1 & N2 & N3); [lia|lia|].
      apply uint_to_string_wp; auto; try (cbn [smem with_mem]; lia).
      intros m' s HC HB HO Hl. wfin. cbn [rev app]. wnil. apply TAIL; auto. rewrite <- N3. auto.
  - wnil. wpure.
    assert (Hsel : (if b2z (hi =? h64) =? 0 then b2z (sgn64 0 <=? sgn64 hi) else b2z (lo =? 0)) = b2z true).
    { rewrite b2z_eq0. unfold sgn64, lim in *. change (0 <? h64) with true. cbv iota. destruct (Z.ltb_spec hi h64); [|lia].
      destruct (Z.eqb_spec hi h64); cbn [negb]; [lia|]. destruct (Z.leb_spec 0 hi); [reflexivity|lia]. }
    rewrite Hsel. wif Hm; [|discriminate]. wpure. wcall HE. apply uint_to_string_wp; auto; try lia.
    intros m' s HC HB HO Hl. wfin. cbn [rev app]. wnil. rewrite Hc. cbn [b2z]. wpure. wnil. cbn [rev app].
    rewrite !Z.add_0_r, !Z.sub_0_r. rewrite !Z.mod_small by lia. apply HR; auto.
    left. unfold sx, lim in *. destruct (Z.ltb_spec hi h64); [|lia]. split; [lia|auto].
Qed.
Lemma int_to_utf8_wp lo hi off st R :
  lim lo -> lim hi -> 4 <= off -> off + 160 <= msize (smem st) -> msize (smem st) + 4 < m32 ->
  (forall m' s, canonical (sx lo hi) s -> bytes_at m' off (4 * length s) = utf8_mem s ->
     same_out (smem st) m' off (4 * Z.of_nat (length s)) -> (length s <= 40)%nat ->
     R (RVals [VI32 off; VI32 (4 * Z.of_nat (length s))] (with_mem st m'))) ->
  wpf E "stdlib.int-to-utf8" [VI64 lo; VI64 hi; VI32 off] st R.
Proof.
  intros L1 L2 Hoff Hmem Hm32 HR. wenter HE. wpure. rewrite sgn64_lt0 by auto.
  assert (N4 : (b2z (h64 <=? hi) * 4) mod m32 = if h64 <=? hi then 4 else 0) by (destruct (h64 <=? hi); reflexivity).
  rewrite N4. clear N4. apply wp_if_eqz; intros Hc'; wcbn; (assert (Hc : (h64 <=? hi) = true) by (destruct (h64 <=? hi); auto; congruence)) || (assert (Hc : (h64 <=? hi) = false) by (destruct (h64 <=? hi); auto; congruence)); clear Hc'; rewrite Hc.
  - wpure. eapply wp_store; [reflexivity|cbn [stbytes]; lia|]. cbn [stbytes]. rewrite Z.add_0_r.
    set (m1 := stn (smem st) off 4 754974720). wpure. wnil. rewrite (Z.mod_small (off + 4)) by lia.
    assert (HO1 : same_out (smem st) m1 off 4) by apply same_out_stn.
    assert (Hrd : bytes_at m1 off 4 = be4 45).
    { apply le_val_inj; auto using bytes_at_byte, be4_bytes. rewrite <- ldn_le. subst m1. rewrite ldn_stn_same. reflexivity. }
    clearbody m1.
    wpure.
    match goal with |- wp _ (_ :: ?rest) _ ?Q => set (REST := rest); set (QQ := Q) end.
    assert (TAIL : forall m' s, canonical_nat (- sx lo hi) s -> bytes_at m' (off + 4) (4 * length s) = utf8_mem s ->
       same_out m1 m' (off + 4) (4 * Z.of_nat (length s)) -> (length s <= 39)%nat ->
       wp E REST (mkcfg [VI64 lo; VI64 hi; VI32 (off + 4); VI32 4; VI32 0] [VI32 (4 * Z.of_nat (length s)); VI32 (off + 4)] (with_mem st m')) QQ).
    { intros m' s HC HB HO Hl. subst REST. wpure. wnil. subst QQ. wfin. cbn [rev app].
      specialize (HR m' (45 :: s)). cbn [length] in HR.
      rewrite (Z.mod_small (off + 4 - 4)), (Z.mod_small (4 * Z.of_nat (length s) + 4)) by lia.
      replace (off + 4 - 4) with off by lia. replace (4 * Z.of_nat (length s) + 4) with (4 * Z.of_nat (S (length s))) by lia.
      apply HR; try lia.
      - right. split; [unfold sx, lim in *; destruct (Z.ltb_spec hi h64); lia|]. exists s; auto.
      - replace (4 * S (length s))%nat with (4 + 4 * length s)%nat by lia. rewrite bytes_at_app.
        change (Z.of_nat 4) with 4. rewrite HB. change (utf8_mem (45 :: s)) with (be4 45 ++ utf8_mem s). f_equal.
        rewrite <- Hrd. destruct HO as [_ HO]. apply bytes_at_ext. intros x Hx. apply HO. lia.
      - eapply same_out_trans; [exact HO1|exact HO|..]; lia. }
    assert (Hms : msize m1 = msize (smem st)) by apply HO1.
    assert (Hsel : (if b2z (hi =? h64) =? 0 then b2z (sgn64 0 <=? sgn64 hi) else b2z (lo =? 0)) = b2z ((lo =? 0) && (hi =? h64))).
    { rewrite b2z_eq0. unfold sgn64, lim in *. change (0 <? h64) with true. cbv iota. destruct (Z.ltb_spec hi h64); [lia|].
      destruct (Z.eqb_spec hi h64); cbn [negb]; rewrite ?andb_true_r, ?andb_false_r; [reflexivity|].
      destruct (Z.leb_spec 0 (hi - m64)); [lia|reflexivity]. }
    rewrite Hsel. wif Hm.
    + wpure. wcall HE. apply uint_to_utf8_wp; auto; try (cbn [smem with_mem]; lia).
      intros m' s HC HB HO Hl. wfin. cbn [rev app]. wnil. apply TAIL; auto.
      replace (- sx lo hi) with (lo + m64 * hi); auto. unfold sx. destruct (Z.ltb_spec hi h64); lia.
    + wpure. wcall HE. destruct (neg_limbs_val lo hi L1 L2) as (N1 & N2 & N3); [lia|lia|].
      apply uint_to_utf8_wp; auto; try (cbn [smem with_mem]; lia).
      intros m' s HC HB HO Hl. wfin. cbn [rev app]. wnil. apply TAIL; auto. rewrite <- N3. auto.
  - wnil. wpure.
    assert (Hsel : (if b2z (hi =? h64) =? 0 then b2z (sgn64 0 <=? sgn64 hi) else b2z (lo =? 0)) = b2z true).
    { rewrite b2z_eq0. unfold sgn64, lim in *. change (0 <? h64) with true. cbv iota. destruct (Z.ltb_spec hi h64); [|lia].
      destruct (Z.eqb_spec hi h64); cbn [negb]; [lia|]. destruct (Z.leb_spec 0 hi); [reflexivity|lia]. }
    rewrite Hsel. wif Hm; [|discriminate]. wpure. wcall HE. apply uint_to_utf8_wp; auto; try lia.
    intros m' s HC HB HO Hl. wfin. cbn [rev app]. wnil. wpure. wnil. cbn [rev app].
    rewrite !Z.add_0_r, !Z.sub_0_r. rewrite !Z.mod_small by lia. apply HR; auto.
    left. unfold sx, lim in *. destruct (Z.ltb_spec hi h64); [|lia]. split; [lia|auto].
Qed.
End Print.
