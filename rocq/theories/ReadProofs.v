(** * The host readers reconstruct represented values *)
From Coq Require Import ZArith String List Bool Lia.
Import ListNotations.
From Verif Require Import Wasm StdEnv WasmTac Spec Mem MemFacts Bytes SpecBytes ConvProofs SpecUtf8 Clar Codec Rep RepFacts.
Open Scope Z_scope.

Lemma hread_holds m a bs : holds m a bs -> hread m a (Z.of_nat (length bs)) = Some bs.
Proof.
  intros H. pose proof (holds_len _ _ _ H) as (H1 & H2 & H3). unfold hread.
  replace (0 <=? a) with true by (symmetry; apply Z.leb_le; lia).
  replace (0 <=? Z.of_nat (length bs)) with true by (symmetry; apply Z.leb_le; lia).
  replace (a + Z.of_nat (length bs) <=? msize m) with true by (symmetry; apply Z.leb_le; lia).
  cbn [andb]. rewrite Nat2Z.id, (holds_eq _ _ _ H). reflexivity.
Qed.
Lemma hread_holds' m a bs n : holds m a bs -> n = Z.of_nat (length bs) -> hread m a n = Some bs.
Proof. intros H ->. apply hread_holds, H. Qed.

Lemma i32_of_le z : 0 <= z < m32 -> i32_of (le_bytes 4 z) = sgn32 z.
Proof. intros H. unfold i32_of. rewrite le_value_eq, le_val_le_bytes, Z.mod_small; [reflexivity|exact H]. Qed.
Lemma u64_of_le z : 0 <= z < m64 -> u64_of (le_bytes 8 z) = z.
Proof. intros H. unfold u64_of. rewrite le_value_eq, le_val_le_bytes, Z.mod_small; [reflexivity|exact H]. Qed.
Lemma sgn32_small z : 0 <= z < h32 -> sgn32 z = z.
Proof. intros H. unfold sgn32. destruct (Z.ltb_spec z h32); lia. Qed.

Lemma split128 z : 0 <= z < 2 ^ 128 -> z / 2 ^ 64 mod 2 ^ 64 * 2 ^ 64 + z mod 2 ^ 64 = z.
Proof.
  intros H. rewrite (Z.mod_small (z / 2 ^ 64)).
  - rewrite (Z.mul_comm (z / 2 ^ 64)). symmetry. apply Z.div_mod. lia.
  - split; [apply Z.div_pos; lia|]. apply Z.div_lt_upper_bound; [lia|]. change (2 ^ 64 * 2 ^ 64) with (2 ^ 128). lia.
Qed.
Lemma split128_mod z : z / 2 ^ 64 mod 2 ^ 64 * 2 ^ 64 + z mod 2 ^ 64 = z mod 2 ^ 128.
Proof. change (2 ^ 128) with (2 ^ 64 * 2 ^ 64). rewrite Z.rem_mul_r by lia. lia. Qed.
Lemma as_signed_id z : - 2 ^ 127 <= z < 2 ^ 127 -> as_signed (z mod 2 ^ 128) = z.
Proof.
  intros H. unfold as_signed. rewrite Z.add_mod_idemp_l by lia.
  rewrite Z.mod_small; [lia|]. change (2 ^ 128) with (2 ^ 127 + 2 ^ 127). lia.
Qed.

(** ** Strings and names *)
Lemma is_clarity_ascii_ok c : clarity_ascii c -> is_clarity_ascii c = true.
Proof. unfold clarity_ascii, is_clarity_ascii. intros H. rewrite !orb_true_iff, andb_true_iff, !Z.leb_le, !Z.eqb_eq. intuition. Qed.
Lemma string_ascii_ok bs n : Forall clarity_ascii bs -> Z.of_nat (length bs) <= n -> n <= max_value_size ->
  string_ascii_from_bytes bs = Some (CAscii bs).
Proof.
  intros H Hn Hm. unfold string_ascii_from_bytes.
  replace (forallb is_clarity_ascii bs) with true.
  - replace (Z.of_nat (length bs) <=? max_value_size) with true by (symmetry; apply Z.leb_le; lia). reflexivity.
  - symmetry. apply forallb_forall. intros x Hx. apply is_clarity_ascii_ok. rewrite Forall_forall in H. auto.
Qed.
Lemma buff_from_ok bs n : Z.of_nat (length bs) <= n -> n <= max_value_size -> buff_from bs = Some (CBuff bs).
Proof. intros. unfold buff_from. replace (Z.of_nat (length bs) <=? max_value_size) with true by (symmetry; apply Z.leb_le; lia). reflexivity. Qed.

Lemma is_scalar_ok c : scalar c -> is_scalar c = true.
Proof. unfold scalar, is_scalar. intros H. rewrite orb_true_iff, !andb_true_iff, !Z.leb_le, !Z.ltb_lt. intuition. Qed.
Lemma scalar_range c : scalar c -> 0 <= c < m32.
Proof. unfold scalar. lia. Qed.

Lemma be_value_be_bytes n z : 0 <= z < 256 ^ Z.of_nat n -> be_value (be_bytes n z) = z.
Proof.
  revert z. induction n; intros z Hz. { cbn in *. lia. }
  unfold be_bytes. cbn [le_bytes rev]. rewrite be_value_app. fold (be_bytes n (z / 256)).
  rewrite Nat2Z.inj_succ, Z.pow_succ_r in Hz by lia.
  rewrite IHn.
  - cbn [length]. change (256 ^ Z.of_nat 1) with 256. unfold be_value. cbn [fold_left].
    pose proof (Z.div_mod z 256). lia.
  - split; [apply Z.div_pos; lia|]. apply Z.div_lt_upper_bound; lia.
Qed.

Lemma be_bytes4_form z : exists a b c d, be_bytes 4 z = [a; b; c; d].
Proof. unfold be_bytes. cbn. do 4 eexists. reflexivity. Qed.

Lemma scalars_of_ok cs : Forall scalar cs -> scalars_of (flat_map (be_bytes 4) cs) = Some cs.
Proof.
  induction 1 as [|c cs Hc H IH]; [reflexivity|]. cbn [flat_map].
  pose proof (be_value_be_bytes 4 c (scalar_range _ Hc)) as Hv.
  destruct (be_bytes4_form c) as (a1 & a2 & a3 & a4 & E). rewrite E in Hv |- *. cbn [app scalars_of].
  rewrite Hv, (is_scalar_ok _ Hc), IH. reflexivity.
Qed.
Lemma string_utf8_ok cs n : Forall scalar cs -> Z.of_nat (length cs) <= n -> n <= max_value_size ->
  string_utf8_from_unicode_scalars (flat_map (be_bytes 4) cs) = Some (CUtf8 cs).
Proof.
  intros H Hn Hm. unfold string_utf8_from_unicode_scalars. rewrite scalars_of_ok by auto.
  replace (Z.of_nat (length cs) <=? max_value_size) with true by (symmetry; apply Z.leb_le; lia). reflexivity.
Qed.

Lemma is_contract_name_ok s : contract_name s -> (length s <= 128)%nat -> is_contract_name s = true.
Proof.
  intros H Hl. unfold is_contract_name. apply andb_true_iff. split; [|apply Z.leb_le; lia].
  destruct (list_eq_dec Z.eq_dec s transient); [reflexivity|]. destruct H as [->|(c & r & -> & H1 & H2)]; [congruence|].
  rewrite H1, H2. reflexivity.
Qed.
Lemma contract_name_ne s : contract_name s -> s <> [].
Proof. intros [->|(c & r & -> & _)]; discriminate. Qed.

(** ** Principals *)
Lemma standard_ok v h : 0 <= v < 32 -> standard_principal v h = Some (v, h).
Proof. intros H. unfold standard_principal. destruct (Z.ltb_spec v 32); [reflexivity|lia]. Qed.

Lemma holds_byte1 m a x xs : holds m a (x :: xs) -> holds m a [x].
Proof. intros H. change (x :: xs) with ([x] ++ xs) in H. apply holds_app in H. tauto. Qed.

Lemma prin_holds m o p : prin_ok p -> holds m o (prin_bytes p) ->
  exists v h n, 0 <= v < 32 /\ length h = 20%nat /\ holds m o [v] /\ holds m (o + 1) h /\ holds m o (v :: h) /\
    holds m (o + 21) [Z.of_nat (length n)] /\ holds m (o + 22) n /\
    ((n = [] /\ p = PStd v h) \/ (n <> [] /\ contract_name n /\ (length n <= 128)%nat /\ p = PCon v h n)).
Proof.
  intros Hp H. destruct p as [v h | v h n]; cbn [prin_bytes prin_ok] in *.
  - destruct Hp as (Hv & Hl & _). exists v, h, [].
    change (v :: h ++ [0]) with ([v] ++ h ++ [0]) in H. pose proof H as H'. apply holds_app in H. destruct H as (H1 & H).
    cbn [length] in H. apply holds_app in H. destruct H as (H2 & H3). rewrite Hl in H3. cbn [length].
    change (Z.of_nat 1) with 1 in *. change (Z.of_nat 20) with 20 in *. replace (o + 1 + 20) with (o + 21) in H3 by lia.
    split; [auto|]. split; [auto|]. split; [auto|]. split; [auto|]. split.
    { change (v :: h) with ([v] ++ h). apply holds_app. auto. }
    split; [auto|]. split; [|auto]. pose proof (holds_len _ _ _ H3) as HL. cbn [length] in HL. apply holds_nil; lia.
  - destruct Hp as ((Hv & Hl & _) & Hn & Hn'). exists v, h, n.
    change (v :: h ++ ?x) with ([v] ++ h ++ x) in H. apply holds_app in H. destruct H as (H1 & H).
    cbn [length] in H. apply holds_app in H. destruct H as (H2 & H3). rewrite Hl in H3.
    change (Z.of_nat 1) with 1 in *. change (Z.of_nat 20) with 20 in *. replace (o + 1 + 20) with (o + 21) in H3 by lia.
    change (?x :: n) with ([x] ++ n) in H3. apply holds_app in H3. destruct H3 as (H3 & H4). cbn [length] in H4.
    change (Z.of_nat 1) with 1 in *. replace (o + 21 + 1) with (o + 22) in H4 by lia.
    split; [auto|]. split; [auto|]. split; [auto|]. split; [auto|]. split.
    { change (v :: h) with ([v] ++ h). apply holds_app. auto. }
    split; [auto|]. split; [auto|]. right. split; [apply contract_name_ne; auto|]. auto.
Qed.

Definition wrap_prin (t : ty) (p : prin) : value :=
  match t, p with TTrait i, PCon _ _ _ => CCallable p i | _, _ => CPrin p end.

Lemma read_principal_ok m t o p : prin_ok p -> holds m o (prin_bytes p) -> read_principal m t o = Some (wrap_prin t p).
Proof.
  intros Hp H. destruct (prin_holds _ _ _ Hp H) as (v & h & n & Hv & Hl & H1 & H2 & _ & H4 & H5 & Hc).
  unfold read_principal.
  rewrite (hread_holds' m o [v] 1 H1 eq_refl), (hread_holds' m (o + 1) h 20 H2) by (rewrite Hl; reflexivity).
  cbn [nth]. rewrite (standard_ok v h Hv). rewrite (hread_holds' m (o + 21) _ 1 H4 eq_refl). cbn [nth fst snd].
  destruct Hc as [(-> & ->)|(Hne & Hn & Hn' & ->)].
  - cbn [length Z.of_nat Z.eqb]. destruct t; reflexivity.
  - destruct n as [|c r]; [congruence|].
    destruct (Z.eqb_spec (Z.of_nat (length (c :: r))) 0) as [E|_]; [cbn [length] in E; lia|].
    rewrite (hread_holds m (o + 22) _ H5), (is_contract_name_ok _ Hn Hn'). destruct t; reflexivity.
Qed.

(** ** Reading *)
Lemma words_at_two m a x y : words_at m a [VI32 x; VI32 y] <-> holds m a (le_bytes 4 x) /\ holds m (a + 4) (le_bytes 4 y).
Proof.
  rewrite words_at_cons. cbn [word_bytes]. rewrite len_le_bytes. change (Z.of_nat 4) with 4.
  unfold words_at. cbn [words_bytes flat_map word_bytes]. rewrite app_nil_r. reflexivity.
Qed.

Lemma read_indirect_ok m a x y : 0 <= x < h32 -> 0 <= y < h32 -> words_at m a [VI32 x; VI32 y] ->
  read_indirect_offset_and_length m a = Some (x, y).
Proof.
  intros Hx Hy H. apply words_at_two in H. destruct H as (H1 & H2). unfold read_indirect_offset_and_length.
  rewrite (hread_holds' m a _ 4 H1) by (rewrite len_le_bytes; reflexivity).
  rewrite (hread_holds' m (a + 4) _ 4 H2) by (rewrite len_le_bytes; reflexivity).
  rewrite !i32_of_le, !sgn32_small by lia. reflexivity.
Qed.

Lemma tag_ok m a x ws : 0 <= x < h32 -> words_at m a (VI32 x :: ws) ->
  exists bs, hread m a 4 = Some bs /\ i32_of bs = x /\ words_at m (a + 4) ws.
Proof.
  intros Hx H. apply words_at_cons in H. cbn [word_bytes] in H. rewrite len_le_bytes in H. destruct H as (H1 & H2).
  exists (le_bytes 4 x). split; [apply (hread_holds' m a _ 4 H1); rewrite len_le_bytes; reflexivity|].
  split; [rewrite i32_of_le, sgn32_small by lia; reflexivity|exact H2].
Qed.

Lemma words_int m a z : words_at m a [VI64 (z mod 2 ^ 64); VI64 (z / 2 ^ 64 mod 2 ^ 64)] ->
  hread m a 8 = Some (le_bytes 8 (z mod 2 ^ 64)) /\ hread m (a + 8) 8 = Some (le_bytes 8 (z / 2 ^ 64 mod 2 ^ 64)).
Proof.
  intros H. apply words_at_cons in H. cbn [word_bytes] in H. rewrite len_le_bytes in H. destruct H as (H1 & H2).
  unfold words_at in H2. cbn [words_bytes flat_map word_bytes] in H2. rewrite app_nil_r in H2.
  split; [apply (hread_holds' m a _ 8 H1)|apply (hread_holds' m (a + 8) _ 8 H2)]; rewrite len_le_bytes; reflexivity.
Qed.

Definition reads_back (m : mem) (P : Z -> Prop) (t : ty) : Prop :=
  forall v ws, rep m P t v ws -> has_type t v ->
    if is_in_memory_type t
    then forall o l, ws = [VI32 o; VI32 l] -> 0 <= o < h32 /\ 0 <= l < h32 /\ read_from_wasm m t o l = Some v
    else forall off, words_at m off ws -> read_from_wasm m t off (get_type_size t) = Some v.

Lemma reads_back_indirect m P t : reads_back m P t -> forall v ws off, rep m P t v ws -> has_type t v ->
  words_at m off ws ->
  (if is_in_memory_type t then
     do ol <- read_indirect_offset_and_length m off; read_from_wasm m t (fst ol) (snd ol)
   else read_from_wasm m t off (get_type_size t)) = Some v.
Proof.
  intros H v ws off Hr Ht Hw. specialize (H v ws Hr Ht). destruct (is_in_memory_type t) eqn:E.
  - pose proof (rep_typed _ _ _ _ _ Hr) as Hty.
    assert (Hc : clar2wasm_ty t = [T32; T32]) by (destruct t; cbn in E; try discriminate; reflexivity).
    rewrite Hc in Hty. inversion Hty as [|? ? ? ? Ha Hb]; subst. inversion Hb as [|? ? ? ? Hb1 Hb2]; subst. inversion Hb2; subst.
    destruct y; cbn in Ha; try contradiction. destruct y0; cbn in Hb1; try contradiction.
    destruct (H z z0 eq_refl) as (H1 & H2 & H3). rewrite (read_indirect_ok m off z z0 H1 H2 Hw). exact H3.
  - auto.
Qed.

Section Read.
Variables (m : mem) (P : Z -> Prop).
Hypothesis Hm : msize m < h32.

Lemma rep_bytes_read bs ws : rep_bytes m P bs ws -> forall o l, ws = [VI32 o; VI32 l] ->
  0 <= o < h32 /\ 0 <= l < h32 /\ l = Z.of_nat (length bs) /\ holds m o bs /\ hread m o l = Some bs.
Proof.
  intros (o & -> & Ho & Hl & Hh & Hi) o' l' E. inversion E; subst o' l'. pose proof (holds_len _ _ _ Hh) as HL.
  split; [lia|]. split; [lia|]. split; [reflexivity|]. split; [exact Hh|]. apply hread_holds; auto.
Qed.

Lemma read_back t : ty_ok t -> reads_back m P t.
Proof.
  induction t using ty_ind'; intros Hok v ws Hr Ht; destruct v; try (cbn [rep has_type] in Hr, Ht; contradiction);
    cbn [is_in_memory_type].
  - (* int *) intros off Hw. cbn [rep] in Hr. subst ws. apply words_int in Hw. destruct Hw as (H1 & H2).
    cbn [read_from_wasm]. rewrite H1, H2. pose proof (mod64_range z). pose proof (mod64_range (z / 2 ^ 64)).
    rewrite !u64_of_le by assumption. rewrite split128_mod. cbn [has_type] in Ht. rewrite as_signed_id by exact Ht. reflexivity.
  - (* uint *) intros off Hw. cbn [rep] in Hr. subst ws. apply words_int in Hw. destruct Hw as (H1 & H2).
    cbn [read_from_wasm]. rewrite H1, H2. pose proof (mod64_range z). pose proof (mod64_range (z / 2 ^ 64)).
    rewrite !u64_of_le by assumption. cbn [has_type] in Ht. rewrite split128 by exact Ht. reflexivity.
  - (* bool *) intros off Hw. cbn [rep] in Hr. subst ws. unfold words_at in Hw. cbn [words_bytes flat_map word_bytes] in Hw.
    rewrite app_nil_r in Hw. cbn [read_from_wasm]. rewrite (hread_holds' m off _ 4 Hw) by (rewrite len_le_bytes; reflexivity).
    destruct b; reflexivity.
  - (* principal *) intros o l E. cbn [rep has_type] in Hr, Ht. destruct (rep_bytes_read _ _ Hr o l E) as (Ho & Hl & _ & Hh & _).
    split; [exact Ho|]. split; [exact Hl|]. cbn [read_from_wasm]. rewrite (read_principal_ok m TPrin o p Ht Hh). reflexivity.
  - (* trait *) intros o l E. cbn [rep has_type] in Hr, Ht. destruct Hr as (-> & Hr). destruct Ht as (_ & Ht & (v & h & n & ->)).
    destruct (rep_bytes_read _ _ Hr o l E) as (Ho & Hl & _ & Hh & _).
    split; [exact Ho|]. split; [exact Hl|]. cbn [read_from_wasm]. rewrite (read_principal_ok m (TTrait id) o _ Ht Hh). reflexivity.
  - (* buff *) intros o l E. cbn [rep has_type ty_ok] in Hr, Ht, Hok. destruct (rep_bytes_read _ _ Hr o l E) as (Ho & Hl & _ & Hh & Hrd).
    split; [exact Ho|]. split; [exact Hl|]. cbn [read_from_wasm]. rewrite Hrd. apply (buff_from_ok _ n); [apply Ht|apply Hok].
  - (* ascii *) intros o l E. cbn [rep has_type ty_ok] in Hr, Ht, Hok. destruct (rep_bytes_read _ _ Hr o l E) as (Ho & Hl & _ & Hh & Hrd).
    split; [exact Ho|]. split; [exact Hl|]. cbn [read_from_wasm]. rewrite Hrd. apply (string_ascii_ok _ n); [apply Ht|apply Ht|apply Hok].
  - (* utf8 *) intros o l E. cbn [rep has_type ty_ok] in Hr, Ht, Hok. destruct (rep_bytes_read _ _ Hr o l E) as (Ho & Hl & _ & Hh & Hrd).
    split; [exact Ho|]. split; [exact Hl|]. cbn [read_from_wasm]. rewrite Hrd. apply (string_utf8_ok _ n); [apply Ht|apply Ht|apply Hok].
  - (* list *) intros o l E. cbn [rep has_type ty_ok] in Hr, Ht, Hok. destruct Hr as (o' & -> & Ho & Hlm & Hb & Hi & He).
    inversion E; subst o' l. clear E. destruct Ht as (_ & Ht). destruct Hok as (_ & Hok).
    change (rep_elems m P t vs o) in He. rewrite words_size_ty in Hlm, Hb, Hi |- *. pose proof (size_pos t Hok) as Hsz.
    assert (Hnn : 0 <= Z.of_nat (length vs) * get_type_size t) by nia.
    split; [lia|]. split; [lia|]. cbn [read_from_wasm].
    set (END := o + Z.of_nat (length vs) * get_type_size t) in *.
    assert (HG : forall us fuel cur, (length us <= fuel)%nat -> cur + Z.of_nat (length us) * get_type_size t = END ->
       Forall (has_type t) us -> rep_elems m P t us cur ->
       (fix loop (fuel : nat) (cur : Z) : option value :=
         if cur <? END then
           match fuel with
           | O => None
           | S fuel =>
               do v <- (if is_in_memory_type t then
                          do ol <- read_indirect_offset_and_length m cur;
                          read_from_wasm m t (fst ol) (snd ol)
                        else read_from_wasm m t cur (get_type_size t));
               match loop fuel (cur + get_type_size t) with
               | Some (CList vs) => Some (CList (v :: vs))
               | _ => None
               end
           end
         else Some (CList [])) fuel cur = Some (CList us)).
    { clear Ht He. induction us as [|u us IHu]; intros fuel cur Hf Hcur Htt Hee.
      - cbn [length] in Hcur. rewrite Z.mul_0_l, Z.add_0_r in Hcur. subst cur.
        destruct fuel; rewrite Z.ltb_irrefl; reflexivity.
      - cbn [length] in *. rewrite Nat2Z.inj_succ in Hcur. destruct fuel as [|fuel]; [lia|].
        replace (cur <? END) with true by (symmetry; apply Z.ltb_lt; nia).
        inversion Htt as [|? ? Ht1 Ht2]; subst. cbn [rep_elems] in Hee. destruct Hee as ((ws' & Hw & Hr) & Hee).
        rewrite words_size_ty in Hee.
        rewrite (reads_back_indirect m P t (IHt Hok) u ws' cur Hr Ht1 Hw).
        rewrite IHu; [reflexivity|lia|lia|auto|auto]. }
    apply HG; auto. rewrite <- (Nat2Z.id (length vs)) at 1. apply Z2Nat.inj_le; nia.
  - (* none *) intros off Hw. cbn [rep] in Hr. destruct Hr as (ws' & -> & _).
    destruct (tag_ok m off 0 ws' ltac:(lia) Hw) as (bs & Hbs & Hi & _). cbn [read_from_wasm]. rewrite Hbs, Hi. reflexivity.
  - (* some *) intros off Hw. cbn [rep has_type ty_ok] in Hr, Ht, Hok. destruct Hr as (ws' & -> & Hr).
    destruct (tag_ok m off 1 ws' ltac:(lia) Hw) as (bs & Hbs & Hi & Hw'). cbn [read_from_wasm]. rewrite Hbs, Hi. cbn [Z.eqb Pos.eqb].
    rewrite (reads_back_indirect m P t (IHt Hok) v ws' (off + 4) Hr Ht Hw'). reflexivity.
  - (* ok *) intros off Hw. cbn [rep has_type ty_ok] in Hr, Ht, Hok. destruct Hr as (ws1 & ws2 & -> & Hr & _). destruct Hok as (Hok1 & Hok2).
    destruct (tag_ok m off 1 _ ltac:(lia) Hw) as (bs & Hbs & Hi & Hw'). apply words_at_app in Hw'. destruct Hw' as (Hw' & _).
    cbn [read_from_wasm]. rewrite Hbs, Hi. cbn [Z.eqb Pos.eqb].
    rewrite (reads_back_indirect m P t1 (IHt1 Hok1) v ws1 (off + 4) Hr Ht Hw'). reflexivity.
  - (* err *) intros off Hw. cbn [rep has_type ty_ok] in Hr, Ht, Hok. destruct Hr as (ws1 & ws2 & -> & Hty & Hr). destruct Hok as (Hok1 & Hok2).
    destruct (tag_ok m off 0 _ ltac:(lia) Hw) as (bs & Hbs & Hi & Hw'). apply words_at_app in Hw'. destruct Hw' as (_ & Hw').
    rewrite (words_bytes_len _ _ Hty), words_size_ty in Hw'.
    cbn [read_from_wasm]. rewrite Hbs, Hi. cbn [Z.eqb Pos.eqb].
    rewrite (reads_back_indirect m P t2 (IHt2 Hok2) v ws2 (off + 4 + get_type_size t1) Hr Ht Hw'). reflexivity.
  - (* tuple *) intros off Hw. change (rep_fields m P fs fs0 ws) in Hr. change (fields_typed fs fs0) in Ht.
    rewrite ty_ok_tuple in Hok. destruct Hok as (_ & _ & Hok). cbn [read_from_wasm].
    revert fs0 ws off Hr Ht Hw. induction H as [|[k t] fs Hft H IH]; intros vs ws off Hr Ht Hw.
    + destruct vs; [reflexivity|contradiction].
    + destruct vs as [|[k' v'] vs]; [contradiction|]. cbn [rep_fields fields_typed fields_ok snd] in *.
      destruct Hr as (ws1 & ws2 & -> & -> & Hr1 & Hr2). destruct Ht as (_ & Ht1 & Ht2). destruct Hok as (Hok1 & Hok2).
      apply words_at_app in Hw. destruct Hw as (Hw1 & Hw2). rewrite (rep_words_len _ _ _ _ _ Hr1) in Hw2.
      rewrite (reads_back_indirect m P t (Hft Hok1) v' ws1 off Hr1 Ht1 Hw1).
      rewrite (IH Hok2 vs ws2 (off + get_type_size t) Hr2 Ht2 Hw2). reflexivity.
Qed.

Lemma read_indirect_back t v ws off : ty_ok t -> rep m P t v ws -> has_type t v -> words_at m off ws ->
  read_from_wasm_indirect m t off = Some v.
Proof. intros Hok Hr Ht Hw. apply (reads_back_indirect m P t (read_back t Hok) v ws off Hr Ht Hw). Qed.
End Read.
