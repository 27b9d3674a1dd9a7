(** * The emitted deserialization code for tuples (proof support): the loop *)
From Coq Require Import ZArith String Ascii List Bool Lia Sorted.
Import ListNotations.
From Verif Require Import Wasm Std StdEnv WasmLogic WasmTac Spec Mem MemFacts Bytes SpecBytes SpecUtf8 Clar Rep RepFacts Emit CallProofs EmitFacts EmitProofs
  ReadProofs Equal EqualProofs Utf8Proofs Utf8Dec ConvProofs NameProofs NameSearch BeProofs SpecSer SpecSkip SkipProofs SerProofs PropSer SpecDeser Deser DeserProofs DeserSeq DeserCtl DeserList DeserTuple ZBits.
Open Scope string_scope.
Open Scope list_scope.
Open Scope Z_scope.

Lemma full_bits ls bits n dn : (0 < n)%nat -> length bits = ((n + 31) / 32)%nat -> (forall i, dn i = (i <? n)%nat) -> bitset ls bits dn ->
  bits <> [] /\ (forall x, In x (removelast bits) -> nth_error ls x = Some (VI32 (m32 - 1))) /\ nth_error ls (last bits O) = Some (VI32 (last_bits n)).
Proof.
  intros Hn HL Hdn HB. pose proof (Nat.div_mod (n + 31) 32 ltac:(lia)) as D1. pose proof (Nat.mod_upper_bound (n + 31) 32 ltac:(lia)) as D2. rewrite <- HL in D1.
  pose proof (Nat.div_mod n 32 ltac:(lia)) as D3. pose proof (Nat.mod_upper_bound n 32 ltac:(lia)) as D4.
  assert (Hne : bits <> []) by (destruct bits; [cbn [length] in D1; lia|discriminate]). split; [exact Hne|].
  assert (EB := app_removelast_last O Hne). set (rl := removelast bits) in *. set (z := last bits O) in *. assert (HLr : length bits = S (length rl)) by (rewrite EB, app_length; cbn [length]; lia). split.
  - intros x Hx. apply In_nth_error in Hx as (j & Hj). assert (j < length rl)%nat by (apply nth_error_Some; congruence).
    destruct (HB j x) as (w & W1 & W2 & W3); [rewrite EB, nth_error_app1 by lia; exact Hj|]. rewrite W1. do 2 f_equal. change (m32 - 1) with (2 ^ Z.of_nat 32 - 1).
    apply full_word; [lia|exact W2|]. intros b Hb. rewrite W3 by exact Hb. rewrite Hdn. destruct (Nat.ltb_spec (32 * j + b) n), (Nat.ltb_spec b 32); lia.
  - destruct (HB (length rl) z) as (w & W1 & W2 & W3); [rewrite EB, nth_error_app2, Nat.sub_diag by lia; reflexivity|]. rewrite W1. do 2 f_equal.
    assert (HC : forall c, (0 < c <= 32)%nat -> n = (32 * length rl + c)%nat -> w = 2 ^ Z.of_nat c - 1).
    { intros c Hc1 Hc2. apply full_word; [lia|exact W2|]. intros b Hb. rewrite W3 by exact Hb. rewrite Hdn. destruct (Nat.ltb_spec (32 * length rl + b) n), (Nat.ltb_spec b c); lia. }
    unfold last_bits. destruct (Nat.eqb_spec (n mod 32) 0) as [H0|H0].
    + change (m32 - 1) with (2 ^ Z.of_nat 32 - 1). apply HC; lia.
    + apply HC; lia.
Qed.
Lemma concat_in {A} (xss : list (list A)) i x : In x (nth i xss []) -> In x (concat xss).
Proof. revert i. induction xss as [|xs xss IH]; intros [|i] H; cbn [nth] in H; try destruct H; cbn [concat]; apply in_or_app; [left; exact H|right; eapply IH; exact H]. Qed.
Lemma concat_disjoint {A} (xss : list (list A)) : NoDup (concat xss) -> forall i j x, In x (nth i xss []) -> In x (nth j xss []) -> i = j.
Proof.
  induction xss as [|xs xss IH]; intros H i j x Hi Hj; [destruct i, Hi|]. cbn [concat] in H. apply NoDup_app_split in H as (_ & H1 & H2).
  destruct i, j; cbn [nth] in *; [reflexivity| | |f_equal; eapply IH; eauto]; exfalso; eapply H2; eauto; eapply concat_in; eauto.
Qed.
Lemma concat_nodup {A} (xss : list (list A)) i : NoDup (concat xss) -> NoDup (nth i xss []).
Proof.
  revert i. induction xss as [|xs xss IH]; intros [|i] H; cbn [nth concat] in *; try constructor; apply NoDup_app_split in H as (H0 & H1 & _); auto.
Qed.
Lemma lvals_same ls ls' is ws : (forall i, In i is -> nth_error ls' i = nth_error ls i) -> lvals ls is ws -> lvals ls' is ws.
Proof. intros H V. unfold lvals in *. induction V as [|i w is ws Hi V IH]; constructor; [rewrite H by (left; reflexivity); exact Hi|]. apply IH. intros j Hj. apply H. right. exact Hj. Qed.

Lemma full_word_bit w c b : (b < c)%nat -> w = 2 ^ Z.of_nat c - 1 -> Z.testbit w (Z.of_nat b) = true.
Proof. intros H ->. rewrite Z.sub_1_r, <- Z.ones_equiv, Z.testbit_ones_nonneg by lia. apply Z.ltb_lt. lia. Qed.
(** a field that has not been read shows in the bitset *)
Lemma missing_bits ls bits n dn i : (i < n)%nat -> length bits = ((n + 31) / 32)%nat -> dn i = false -> bitset ls bits dn ->
  (forall x, In x (removelast bits) -> nth_error ls x = Some (VI32 (m32 - 1))) -> nth_error ls (last bits O) = Some (VI32 (last_bits n)) -> False.
Proof.
  intros Hi HL Hdn HB H1 H2. pose proof (Nat.div_mod (n + 31) 32 ltac:(lia)) as D1. pose proof (Nat.mod_upper_bound (n + 31) 32 ltac:(lia)) as D2. rewrite <- HL in D1.
  pose proof (Nat.div_mod n 32 ltac:(lia)) as D3. pose proof (Nat.mod_upper_bound n 32 ltac:(lia)) as D4. pose proof (Nat.div_mod i 32 ltac:(lia)) as D5. pose proof (Nat.mod_upper_bound i 32 ltac:(lia)) as D6.
  assert (Hne : bits <> []) by (destruct bits; [cbn [length] in D1; lia|discriminate]).
  assert (EB := app_removelast_last O Hne). set (rl := removelast bits) in *. set (z := last bits O) in *. assert (HLr : length bits = S (length rl)) by (rewrite EB, app_length; cbn [length]; lia).
  assert (HX : exists x w, nth_error bits (i / 32) = Some x /\ nth_error ls x = Some (VI32 w) /\ Z.testbit w (Z.of_nat (i mod 32)) = true).
  { destruct (Nat.lt_ge_cases (i / 32) (length rl)) as [Hq|Hq].
    - destruct (nth_error rl (i / 32)) as [x|] eqn:Ex; [|apply nth_error_None in Ex; lia]. exists x, (m32 - 1). split; [rewrite EB, nth_error_app1 by lia; exact Ex|]. split; [apply H1; eapply nth_error_In; eauto|].
      apply full_word_bit with (c := 32%nat); [lia|reflexivity].
    - assert (i / 32 = length rl)%nat as Hq' by lia. exists z, (last_bits n). split; [rewrite EB, nth_error_app2, Hq', Nat.sub_diag by lia; reflexivity|]. split; [exact H2|].
      unfold last_bits. destruct (Nat.eqb_spec (n mod 32) 0) as [H0|H0].
      + apply full_word_bit with (c := 32%nat); [lia|reflexivity].
      + apply full_word_bit with (c := (n mod 32)%nat); [lia|reflexivity]. }
  destruct HX as (x & w & X1 & X2 & X3). destruct (HB _ _ X1) as (w' & W1 & _ & W3). assert (w' = w) as -> by congruence. rewrite W3 in X3 by exact D6. rewrite <- D5 in X3. congruence.
Qed.

Section Code.
Variable tab : list string -> Z.
Context {HS : Type} (E : env HS) (HE : has_std E).
Notation wp := (wp E).
Notation deser_right := (deser_right tab E).

Lemma deser_tuple_eq fs ol el rl l : deserialize_from_memory tab (TTuple fs) ol el rl l =
  let ks := map fst fs in
  let n := length fs in
  let '(bits, l) := add_locals (repeat T32 ((n + 31) / 32)) l in
  let '(vss, l) := field_locals (map snd fs) l in
  let '(rem, l) := add_local T32 l in
  let '(nm, l) := add_local T32 l in
  let '(cases, l) := deser_cases tab n bits rem ol el rl fs O vss l in
  ([Block 0 (1 + length (clar2wasm_ty (TTuple fs)))
     (flat_map (fun b => [Const (VI32 0); LSet b]) bits ++
      [Block 0 0
         ([LGet ol; Const (VI32 5); B32 Add; LGet el; R32 GtU; BrIf 0;
           LGet ol; Load L32_8u 0; Const (VI32 12); R32 Ne; BrIf 0;
           LGet ol; Const (VI32 1); B32 Add; Call "stdlib.load-i32-be"; LTee rem; Const (VI32 (Z.of_nat n)); R32 LtU; BrIf 0] ++
          bump ol 5 ++
          [Loop 0 0 (Block 0 0 (nest (tuple_switch tab ks ol el nm) cases) :: tuple_default ol el nm rem)])] ++
      [LGet rem; Eqz32] ++
      flat_map (fun b => [LGet b; Const (VI32 (m32 - 1)); R32 Eq; B32 And]) (removelast bits) ++
      [LGet (last bits O); Const (VI32 (last_bits n)); R32 Eq; B32 And;
       If 0 (1 + length (clar2wasm_ty (TTuple fs)))
         (Const (VI32 1) :: push_locals (concat vss))
         (Const (VI32 0) :: placeholders (TTuple fs))])], l).
Proof. reflexivity. Qed.

Lemma some_ok bits : forall js ls k (st : store HS) Q c, (c = 0 \/ c = 1) -> (forall x, In x bits -> exists w, nth_error ls x = Some (VI32 w)) ->
  (forall c', (c' = 0 \/ c' = 1) -> (c' = 1 -> c = 1 /\ forall x, In x bits -> nth_error ls x = Some (VI32 (m32 - 1))) -> wp js (mkcfg ls (VI32 c' :: k) st) Q) ->
  wp (flat_map (fun b => [LGet b; Const (VI32 (m32 - 1)); R32 Eq; B32 And]) bits ++ js) (mkcfg ls (VI32 c :: k) st) Q.
Proof.
  induction bits as [|b bits IH]; intros js ls k st Q c Hc H HW; cbn [flat_map app].
  { apply HW; [exact Hc|]. intros ->. split; [reflexivity|]. intros x []. }
  destruct (H b) as (w & Hw); [left; reflexivity|]. eapply wp_lget; [exact Hw|]. apply wp_const. apply wp_r32. cbn [irel]. eapply wp_b32; [reflexivity|].
  assert (HL : Z.land c (b2z (w =? m32 - 1)) = 0 \/ (Z.land c (b2z (w =? m32 - 1)) = 1 /\ c = 1 /\ w = m32 - 1)).
  { destruct Hc as [-> | ->]; [left; apply Z.land_0_l|]. destruct (Z.eqb_spec w (m32 - 1)) as [->|Hne]; [right|left; reflexivity]. split; [reflexivity|]. split; reflexivity. }
  set (c1 := Z.land c _) in *. apply IH; [destruct HL as [-> |(-> & _)]; auto|intros x Hx; apply H; right; exact Hx|].
  intros c' Hc' Hall. apply HW; [exact Hc'|]. intros E1. destruct (Hall E1) as (E2 & E3). destruct HL as [E4|(_ & -> & ->)]; [congruence|]. split; [reflexivity|]. intros x [<-|Hx]; [exact Hw|auto].
Qed.

Lemma deser_tuple_ok fs : Forall (fun f => deser_right (snd f)) fs -> deser_right (TTuple fs).
Proof.
  intros IH Hok l ol el rl c l' H Hw Ho He Hr D1 D2 D3. rewrite ty_ok_tuple in Hok. destruct Hok as (Hfs & Hnd & Hfok). rewrite deser_tuple_eq in H. cbv zeta in H.
  set (n := length fs) in *. set (ks := map fst fs) in *.
  destruct (add_locals (repeat T32 ((n + 31) / 32)) l) as [bits l1] eqn:E1. destruct (field_locals (map snd fs) l1) as [vss l2] eqn:E2. rewrite add_one, add_more in H. cbn [length app] in H.
  destruct (deser_cases tab n bits (llen l2) ol el rl fs O vss (more l2 [T32; T32])) as [cases l5] eqn:E5.
  assert (Hc := f_equal fst H). assert (Hl' := f_equal snd H). cbn [fst snd] in Hc, Hl'. subst c l'. clear H.
  destruct (add_locals_ok _ _ _ _ E1 Hw) as (P1 & P2 & _ & P4 & P5 & P6). rewrite repeat_length in P5.
  destruct (field_locals_ok _ _ _ _ E2 (lext_wf _ _ P1)) as (V1 & V2 & V3 & V4 & V5 & V6). rewrite map_length in V2.
  assert (L2 : lext l l2) by (eapply lext_trans; eauto). set (l4 := more l2 [T32; T32]) in *. assert (M4 : lext l2 l4) by (apply more_ext; eapply lext_wf; eauto). assert (L4 : lext l l4) by (eapply lext_trans; eauto).
  set (rem := llen l2) in *. set (nm := (rem + 1)%nat) in *.
  destruct (deser_cases_ok tab E n bits rem ol el rl fs IH Hfok D1 D2 D3 _ _ _ _ _ E5 (lext_wf _ _ L4) (lext_live _ _ _ L4 Ho) (lext_live _ _ _ L4 He) (lext_live _ _ _ L4 Hr)) as (C1 & C2 & C3).
  assert (Hl4 : llen l4 = (rem + 2)%nat) by (unfold l4; rewrite llen_more; reflexivity). pose proof (lext_len _ _ C1) as Hl5. pose proof (lext_len _ _ P1) as Hl1. pose proof (lext_len _ _ V1) as Hl2. fold rem in Hl2.
  assert (Lrem : live l4 rem). { replace rem with (rem + 0)%nat by lia. apply live_new; [eapply lext_wf; eauto|cbn; lia]. }
  assert (Lnm : live l4 nm) by (apply live_new; [eapply lext_wf; eauto|cbn; lia]).
  split; [eapply lext_trans; eauto|]. intros js ls k st a e r K o Q Go Ge Gr Hn HA HT HK HW S F. assert (HA' := HA). destruct HA' as (A1 & A2 & A3 & A4 & A5 & A6 & A7 & A8 & A9).
  assert (LTo := live_lt _ _ Ho). assert (LTe := live_lt _ _ He). assert (LTr := live_lt _ _ Hr).
  assert (CASES : exists its bs, bs = 12 :: u32_be (zlen its) ++ flat_map item_bytes its /\ zlen its < 2 ^ 32 /\ (forall it, In it its -> reads_item fs it) /\ holds (smem st) a bs /\ a + zlen bs <= e /\
     ((exists vs, o = Some (CTuple vs, bs) /\ readable (TTuple fs) (CTuple vs) bs /\ map fst vs = ks /\ (forall k, In k ks -> count_occ zlist_dec (map fst its) (chars k) = 1%nat) /\ readable_fields its fs vs) \/
      (o = None /\ exists k, In k ks /\ count_occ zlist_dec (map fst its) (chars k) <> 1%nat))).
  { destruct o as [[v bs]|].
    - destruct HW as (W1 & W2 & W3). destruct v as [| | | | | | | | | | | | |vs]; cbn [readable] in W1; try contradiction.
      assert (W1' := W1). destruct W1 as (its & Hbs & W4 & W5 & W6 & W7 & W8). change (readable_fields its fs vs) in W8. fold ks in W5, W6. exists its, bs. split; [exact Hbs|]. split; [exact W4|].
      split; [|split; [exact W2|]; split; [exact W3|]; left; exists vs; split; [reflexivity|]; split; [exact W1'|]; split; [exact W5|]; split; [exact W6|exact W8]].
      intros it Hit. destruct (in_dec zlist_dec (fst it) (map (fun f => chars (fst f)) fs)) as [Hk|Hk].
      + left. apply in_map_iff in Hk as ((f & t) & Hk1 & Hk2). cbn [fst] in Hk1. apply In_nth_error in Hk2 as (i & Hi).
        destruct (fields_nth _ _ _ W8 W5 _ _ _ Hi) as (v & b & Y1 & Y2 & Y3). exists f, t, v. split; [eapply nth_error_In; exact Hi|]. split; [congruence|].
        assert (b = snd it) as <-; [|exact Y3]. apply in_split in Hit as (past & rest & ->).
        apply (once past rest it); [rewrite <- Hk1; apply W6; unfold ks; change f with (fst (f, t)); apply in_map; eapply nth_error_In; exact Hi|]. rewrite <- Hk1. exact Y2.
      + right. split; [exact Hk|]. destruct (W7 _ Hit) as [X|X]; [contradiction|exact X].
    - destruct HW as [[]|(bs & (its & Hbs & M1 & M2 & M3) & W2 & W3)]. exists its, bs. split; [exact Hbs|]. split; [exact M1|]. split; [exact M2|]. split; [exact W2|]. split; [exact W3|]. right. split; [reflexivity|exact M3]. }
  clear HW. destruct CASES as (its & bs & Hbs & W4 & W7 & W2 & W3 & WD).
  assert (Kn : length ks = n) by (unfold ks, n; apply map_length). assert (Hn0 : (0 < n)%nat) by (unfold n; destruct fs; [contradiction|cbn; lia]).
  assert (Kn' : zlen ks = Z.of_nat n) by (unfold zlen; congruence).
  assert (Hen : o = None \/ Z.of_nat n <= zlen its).
  { destruct WD as [(vs & _ & _ & _ & W6 & _)|(Hno & _)]; [right|left; exact Hno]. pose proof (enough_items ks its Hnd W6) as Hen. rewrite Kn' in Hen. exact Hen. }
  cbn [tables] in HT. destruct HT as (HTab & HTf). change (tables_fields tab (smem st) K fs) in HTf. fold ks in HTab. set (R := room (TTuple fs)) in *.
  assert (HRsum : R = usum (seen ks []) 0 fs) by (symmetry; apply usum_all; intros j; apply seen_none).
  (* the input *)
  rewrite Hbs in W2, W3. rewrite zlen_cons, zlen_app in W3. unfold u32_be in W3. rewrite zlen_be in W3.
  assert (Htag : rd (smem st) a = 12) by (eapply head_tag; [exact W2|reflexivity]). assert (W2a := W2). apply holds_cons in W2 as (_ & _ & _ & _ & _ & W2). apply holds_app in W2 as (Wlen & Wits). unfold u32_be in Wits. rewrite len_be_bytes in Wits.
  replace (a + 1 + Z.of_nat 4) with (a + 5) in Wits by lia.
  assert (Live : forall x, In x bits -> (llen l <= x < rem)%nat). { intros x Hx. rewrite Forall_forall in P2, P6. specialize (P2 _ Hx). specialize (P6 _ Hx). apply live_lt in P2. cbv beta in P6. lia. }
  assert (Livv : forall x, In x (concat vss) -> (llen l1 <= x < rem)%nat). { intros x Hx. rewrite Forall_forall in V4, V5. specialize (V4 _ Hx). specialize (V5 _ Hx). apply live_lt in V4. cbv beta in V5. fold rem in V4. lia. }
  assert (Dis : forall x, In x bits -> (x < llen l1)%nat). { intros x Hx. rewrite Forall_forall in P2. specialize (P2 _ Hx). apply live_lt in P2. exact P2. }
  assert (Lvv : forall x, In x (concat vss) -> live l4 x). { intros x Hx. rewrite Forall_forall in V4. eapply lext_live; [exact M4|auto]. }
  assert (Lbb : forall x, In x bits -> live l4 x). { intros x Hx. rewrite Forall_forall in P2. eapply lext_live; [exact M4|]. eapply lext_live; [exact V1|auto]. }
  set (P := fun cur rp x : Z => a <= x < cur \/ r <= x < rp).
  set (INV := fun (lz : list val) (mz : mem) (past rest : list item) (rp : Z) =>
    let cur := a + 5 + zlen (flat_map item_bytes past) in
    lkeep (hide [ol; rl] l) ls lz /\ its = past ++ rest /\ r <= rp /\ rp + usum (seen ks past) 0 fs <= r + R /\ only_changes (smem st) mz r (rp - r) /\
    (forall k, In k ks -> (count_occ zlist_dec (map fst past) (chars k) <= 1)%nat) /\ bitset lz bits (seen ks past) /\
    (forall i f t, nth_error fs i = Some (f, t) -> seen ks past i = true -> exists v ws, (forall vs, o = Some (CTuple vs, bs) -> nth_error vs i = Some (f, v)) /\ lvals lz (nth i vss []) ws /\ rep mz (P cur rp) t v ws) /\
    nth_error lz ol = Some (VI32 cur) /\ nth_error lz rl = Some (VI32 rp) /\ nth_error lz el = Some (VI32 e) /\ nth_error lz rem = Some (VI32 (zlen rest))).
  cbn [app]. apply wp_block. wst. rewrite <- ?app_assoc. cbn [app].
  match goal with |- WasmLogic.wp E _ _ ?q => set (QO := q) end.
  match goal with |- WasmLogic.wp E (_ ++ Block 0 0 _ :: ?x) _ _ => set (TAIL := x) end.
  assert (FAILT : forall lz mz dn w x, o = None -> lkeep (hide [ol; rl] l) ls lz -> bitset lz bits dn -> nth_error lz rem = Some (VI32 w) -> w <> 0 \/ (exists i, (i < n)%nat /\ dn i = false) ->
    nth_error lz ol = Some (VI32 x) -> only_changes (smem st) mz r R -> wp TAIL (mkcfg lz [] (with_mem st mz)) QO).
  { intros lz mz dn w x Hno Hk HB Hrm Hor Hol Hm. unfold TAIL. eapply wp_lget; [exact Hrm|]. apply wp_eqz32.
    assert (Hbne : bits <> []). { intros ->. cbn [length] in P5. pose proof (Nat.div_mod (n + 31) 32 ltac:(lia)). pose proof (Nat.mod_upper_bound (n + 31) 32 ltac:(lia)). lia. }
    assert (EB := app_removelast_last O Hbne).
    assert (HBW : forall y, In y bits -> exists wy, nth_error lz y = Some (VI32 wy)). { intros y Hy. apply In_nth_error in Hy as (j & Hj). destruct (HB _ _ Hj) as (wy & Hwy & _). eauto. }
    apply some_ok; [destruct (w =? 0); cbn; auto|intros y Hy; apply HBW; rewrite EB; apply in_or_app; left; exact Hy|].
    intros c' Hc' Hall. destruct (HBW (last bits O)) as (wl & Hwl); [rewrite EB at 2; apply in_or_app; right; left; reflexivity|]. eapply wp_lget; [exact Hwl|]. apply wp_const. apply wp_r32. cbn [irel]. eapply wp_b32; [reflexivity|].
    assert (Z.land c' (b2z (wl =? last_bits n)) = 0) as ->.
    { destruct Hc' as [-> | ->]; [apply Z.land_0_l|]. destruct (Z.eqb_spec wl (last_bits n)) as [->|Hne]; [|reflexivity]. exfalso. destruct (Hall eq_refl) as (H0 & H1).
      destruct Hor as [Hw0|(i & Hi & Hdi)]; [destruct (Z.eqb_spec w 0); [contradiction|discriminate H0]|]. eapply missing_bits with (i := i); eauto. }
    eapply wp_if; [reflexivity|]. cbn [Z.eqb]. wst. apply wp_const. rewrite <- (app_nil_r (placeholders _)). apply wp_placeholders. apply wp_nil. wst. rewrite ?app_nil_r. apply wp_nil. unfold QO. wst. rewrite <- ?app_assoc. cbn [app].
    apply (F lz mz). split; [exact Hno|]. split; [exact Hk|]. split; [eauto|]. split; [exact Hm|apply zeros_typed]. }
  assert (FIN : forall lz mz rp, INV lz mz its [] rp -> wp TAIL (mkcfg lz [] (with_mem st mz)) QO).
  { intros lz mz rp (I1 & _ & I2 & I3 & I4 & IC & I5 & I6 & I7 & I8 & I9 & I10). cbv zeta in *. set (cur := a + 5 + zlen (flat_map item_bytes its)) in *.
    pose proof (usum_nonneg (seen ks its) fs Hfok O) as HUN. destruct WD as [(vs & Ho' & W1' & W5 & W6 & W8)|(Hno & kk & Hkk & Hct)].
    2:{ eapply FAILT; [exact Hno|exact I1|exact I5|exact I10| |exact I7|eapply only_weaken; [exact I4|lia|lia]]. right. destruct (In_nth_error _ _ Hkk) as (i & Hi). exists i. split; [rewrite <- Kn; apply nth_error_Some; congruence|].
        destruct (seen ks its i) eqn:Es; [|reflexivity]. exfalso. apply (seen_in _ _ _ _ Hi) in Es. apply (count_occ_In zlist_dec) in Es. specialize (IC kk Hkk). unfold item in *. lia. }
    assert (ALL : forall i, seen ks its i = (i <? n)%nat).
    { intros i. destruct (Nat.ltb_spec i n) as [Hi|Hi]; [|apply seen_over; lia]. destruct (nth_error ks i) as [f|] eqn:Ef; [|apply nth_error_None in Ef; lia]. apply (seen_in _ _ _ _ Ef). apply (count_occ_In zlist_dec).
      specialize (W6 f (nth_error_In _ _ Ef)). unfold item in *. lia. }
    destruct (full_bits lz bits n _ Hn0 P5 ALL I5) as (B1 & B2 & B3).
    unfold TAIL. eapply wp_lget; [exact I10|]. apply wp_eqz32. change (zlen (@nil item)) with 0. cbn [Z.eqb b2z]. eapply full_ok; [exact B2|]. eapply wp_lget; [exact B3|]. apply wp_const. apply wp_r32. cbn [irel]. rewrite Z.eqb_refl.
    eapply wp_b32; [reflexivity|]. change (Z.land 1 (b2z true)) with 1. eapply wp_if; [reflexivity|]. cbn [Z.eqb]. wst. apply wp_const.
    destruct (fields_rep mz (P cur rp) lz fs vs vss W5 V2) as (wl & Q1 & Q2). { intros i f t Hi. destruct (I6 _ _ _ Hi) as (v & ws & J1 & J2 & J3); [rewrite ALL; apply Nat.ltb_lt; unfold n; apply nth_error_Some; congruence|]. exists v, ws. split; [apply J1; exact Ho'|]. split; [exact J2|exact J3]. }
    rewrite <- (app_nil_r (push_locals _)). eapply wp_lgets; [exact Q1|]. apply wp_nil. wst. rewrite ?app_nil_r. apply wp_nil. unfold QO. wst. rewrite <- ?app_assoc. cbn [app].
    apply (S lz mz (CTuple vs) bs wl rp). unfold succeeded. assert (HZ : zlen bs = 5 + zlen (flat_map item_bytes its)) by (rewrite Hbs, zlen_cons, zlen_app; unfold u32_be; rewrite zlen_be; lia).
    pose proof (usum_nonneg (seen ks its) fs Hfok O).
    rewrite HZ. split; [exact I1|]. split; [rewrite I7; do 2 f_equal; unfold cur; lia|]. split; [exact I8|]. split; [lia|]. split; [exact I4|]. split; [exact W1'|]. split; [rewrite Hbs; exact W2a|]. split; [lia|]. split; [rewrite Ho'; split; reflexivity|].
    rewrite rep_tuple. replace (a + (5 + zlen (flat_map item_bytes its))) with cur by (unfold cur; lia). exact Q2. }
  unfold app at 1 in TAIL || idtac. apply clear_ok; [intros x Hx; specialize (Live _ Hx); lia|]. intros ls1 Lc1 Oc1 Bc1.
  assert (K1 : lkeep (hide [ol; rl] l) ls ls1). { split; [exact Lc1|]. intros x Hx. apply live_hide in Hx as (Hx & _). apply live_lt in Hx. apply Oc1. intros HX. specialize (Live _ HX). lia. }
  assert (G1 : nth_error ls1 ol = Some (VI32 a) /\ nth_error ls1 el = Some (VI32 e) /\ nth_error ls1 rl = Some (VI32 r)).
  { assert (X : forall i, (i < llen l)%nat -> nth_error ls1 i = nth_error ls i). { intros i Hi. apply Oc1. intros HX. specialize (Live _ HX). lia. } rewrite !X by assumption. auto. }
  destruct G1 as (G1 & G2 & G3).
  pose proof (zlen_nonneg (flat_map item_bytes its)) as Hfz. pose proof (zlen_nonneg its) as Hiz.
  apply wp_block. wst. eapply wp_lget; [exact G1|]. apply wp_const. apply wp_add32; [lia|]. eapply wp_lget; [exact G2|]. apply wp_r32. cbn [irel]. apply wp_brif_bool; intros Hc; [|lia]. clear Hc.
  eapply wp_lget; [exact G1|]. apply wp_byte_at; [lia|lia|]. rewrite Z.add_0_r, Htag. apply wp_const. apply wp_r32. cbn [irel]. apply wp_brif_bool; intros Hc; [|discriminate Hc]. clear Hc.
  eapply wp_lget; [exact G1|]. apply wp_const. apply wp_add32; [lia|]. wcall HE. apply load_i32_be_wp with (n := zlen its); [exact HE|change m32 with (2 ^ 32); lia|exact Wlen|]. unfold qcall. wcbn. apply wp_ltee. apply wp_const. apply wp_r32. cbn [irel].
  apply wp_brif_bool; intros Hc.
  2:{ cbn [qblock exit_block cont]. wst. rewrite <- (with_mem_same st). destruct Hen as [Hno|Hen]; [|apply Z.ltb_lt in Hc; lia].
      eapply (FAILT _ _ (seen ks []) (zlen its) a); [exact Hno|apply keep_new2; [lia|exact K1]| |lk| |lk|apply only_refl].
      - eapply bitset_ext; [intros j; symmetry; apply seen_none|]. eapply bitset_keep; [|exact Bc1]. intros x Hx. specialize (Live _ Hx). rewrite lset_other by lia. reflexivity.
      - right. exists O. split; [exact Hn0|apply seen_none]. }
  apply Z.ltb_ge in Hc. clear Hen. rename Hc into Hen. eapply wp_bump with (a := a); [lk|lia|].
  set (ls2 := lset (lset ls1 rem _) ol _).
  assert (INV0 : INV ls2 (smem st) [] its r).
  { unfold INV. cbv zeta. cbn [flat_map app]. change (zlen (@nil Z)) with 0. rewrite Z.add_0_r. unfold ls2. split; [do 2 (apply keep_new2; [lia|]); exact K1|]. split; [reflexivity|]. split; [lia|]. split; [lia|]. split; [apply only_refl|]. split; [intros kk _; cbn; lia|].
    split. { eapply bitset_ext; [intros j; symmetry; apply seen_none|]. eapply bitset_keep; [|exact Bc1]. intros x Hx. specialize (Live _ Hx). rewrite !lset_other by lia. reflexivity. }
    split; [intros i f t _ HX; rewrite seen_none in HX; discriminate|]. split; [lk|]. split; [lk|]. split; lk. }
  clearbody ls2. clear ls1 Lc1 Oc1 Bc1 K1 G1 G2 G3.
  assert (Hits : its <> []) by (intros ->; change (zlen (@nil item)) with 0 in Hen; lia).
  eapply wp_loop0 with (z := zlen its) (I := fun z s => exists lz mz past rest rp, s = mkcfg lz [] (with_mem st mz) /\ INV lz mz past rest rp /\ rest <> [] /\ z = zlen rest).
  { lia. }
  { exists ls2, (smem st), [], its, r. rewrite with_mem_same. auto. }
  intros z lz st' Hz (lz' & mz & past & rest & rp & EQ & HI & Hrest & ->). apply cfg_inj in EQ. destruct EQ as (<- & ->). destruct rest as [|it rest]; [contradiction|]. clear Hrest INV0 ls2.
  assert (NEXT : forall lz' mz' rp', INV lz' mz' (past ++ [it]) rest rp' ->
    (rest = [] -> wp TAIL (mkcfg lz' [] (with_mem st mz')) QO) /\
    (rest <> [] -> exists z', 0 <= z' < zlen (it :: rest) /\ exists lz mz past rest rp, mkcfg lz' [] (with_mem st mz') = mkcfg lz [] (with_mem st mz) /\ INV lz mz past rest rp /\ rest <> [] /\ z' = zlen rest)).
  { intros lz' mz' rp' HI'. split.
    - intros ->. assert (its = past ++ [it]) as Hp by (destruct HI' as (_ & Hp & _); rewrite app_nil_r in Hp; exact Hp). rewrite <- Hp in HI'. eapply FIN. exact HI'.
    - intros Hr'. exists (zlen rest). rewrite zlen_cons. pose proof (zlen_nonneg rest). split; [lia|]. exists lz', mz', (past ++ [it]), rest, rp'. auto. }
  clear FIN. destruct HI as (I1 & I0 & I2 & I3 & I4 & IC & I5 & I6 & I7 & I8 & I9 & I10). cbv zeta in *. set (cur := a + 5 + zlen (flat_map item_bytes past)) in *.
  destruct it as [key b]. assert (Lz : length lz = length ls) by exact (lkeep_len _ _ _ I1). assert (HSz := only_size _ _ _ _ I4).
  pose proof (zlen_nonneg key) as Hk0. pose proof (zlen_nonneg b) as Hb0. pose proof (zlen_nonneg (flat_map item_bytes past)) as Hp0. pose proof (zlen_nonneg (flat_map item_bytes rest)) as Hr0. pose proof (zlen_nonneg rest) as Hrz.
  pose proof (usum_nonneg (seen ks past) fs Hfok O) as Hus.
  assert (Hzz : 1 + zlen rest < m32) by (rewrite I0, zlen_app, zlen_cons in W4; pose proof (zlen_nonneg past); change (2 ^ 32) with m32 in W4; lia).
  assert (Hfit : cur + 1 + zlen key + zlen b <= e).
  { rewrite I0, flat_map_app, zlen_app in W3. cbn [flat_map] in W3. rewrite zlen_app in W3. unfold item_bytes at 2 in W3. cbn [fst snd] in W3. rewrite zlen_cons, zlen_app in W3. unfold cur. lia. }
  assert (Hitem : holds (smem st) cur (zlen key :: key ++ b)).
  { rewrite I0, flat_map_app in Wits. apply holds_app in Wits as (_ & Wits). cbn [flat_map] in Wits. apply holds_app in Wits as (Wits & _). unfold cur, zlen at 1. exact Wits. }
  assert (Hitemz : holds mz cur (zlen key :: key ++ b)).
  { eapply only_holds; [exact I4| |exact Hitem]. change (Z.of_nat (length (zlen key :: key ++ b))) with (zlen (zlen key :: key ++ b)). rewrite zlen_cons, zlen_app. lia. }
  assert (Hkl : rd mz cur = zlen key) by (eapply head_tag; [exact Hitemz|reflexivity]). apply holds_cons in Hitemz as (_ & _ & _ & _ & _ & Hitemz). apply holds_app in Hitemz as (Hkey & Hval). unfold zlen in Hval at 1 || idtac.
  change (Z.of_nat (length key)) with (zlen key) in Hval.
  assert (Hin : In (key, b) its) by (rewrite I0; apply in_or_app; right; left; reflexivity).
  (* the table *)
  destruct HTab as (T1 & T2 & T3 & T4 & T5). assert (T2z : holds mz (tab ks) (key_table (tab ks) (map chars ks))).
  { eapply holds_ext; [exact HSz| |exact T2]. intros x Hx. apply (proj2 I4). pose proof (HK x (T3 x Hx)). lia. }
  destruct (key_table_row mz (tab ks) (map chars ks) ltac:(lia) T2z) as (R1 & R2 & R3). rewrite map_length, Kn in R1, R2, R3.
  assert (Hkne : key <> []).
  { destruct (W7 _ Hin) as [(f & t & _ & X & X' & _)|(_ & X & _)]; cbn [fst] in *.
    - rewrite X'. rewrite Forall_forall in T4. apply (T4 (chars f)). apply in_map. unfold ks. change f with (fst (f, t)). apply in_map. exact X.
    - intros ->. apply clarity_name_iff in X. discriminate. }
  apply wp_block. wst. apply wp_nest. unfold tuple_switch. rewrite Kn.
  eapply wp_lget; [exact I7|]. eapply wp_lget; [exact I9|]. apply wp_r32. cbn [irel]. apply wp_brif_bool; intros Hc; [|lia]. clear Hc.
  eapply wp_lget; [exact I7|]. apply wp_byte_at; [lia|cbn [smem with_mem]; lia|]. cbn [smem with_mem]. rewrite Z.add_0_r, Hkl. apply wp_ltee. eapply wp_lget; [lk|]. apply wp_const. apply wp_add32; [lia|]. apply wp_ltee. apply wp_add32; [lia|].
  eapply wp_lget; [lk|]. apply wp_r32. cbn [irel]. apply wp_brif_bool; intros Hc; [|lia]. clear Hc.
  apply wp_const. apply wp_const. eapply wp_lget; [lk|]. eapply wp_lget; [lk|]. wcall HE.
  change (VI32 (zlen key)) with (vlen key) at 1.
  eapply bsearch_wp with (names := map chars ks); [exact HE|lia|rewrite map_length, Kn; exact R3|cbn [smem with_mem]; lia|intros HX; apply map_eq_nil in HX; rewrite HX in Kn; cbn in Kn; lia|rewrite map_length, Kn; exact R1|rewrite map_length, Kn; exact R2|exact Hkey|exact Hkne|eapply Forall_impl; [|exact T4]; cbv beta; intros x Hx; apply Hx|exact T5| |].
  all: cycle 1.
  - (* an unknown key *)
    intros Hni. unfold qcall. wcbn. eapply wp_lget; [lk|]. eapply wp_lget; [lk|]. apply wp_add32; [lia|]. apply wp_lset. eapply wp_brtable; [reflexivity|]. rewrite seq_length. destruct (Z.ltb_spec 4294967295 (Z.of_nat n)); [lia|]. cbn [npost]. unfold setstk. cbn [clocals cstack cstore].
    unfold npost. fold n in C2. rewrite C2, Nat.ltb_irrefl, Nat.sub_diag. unfold qblock. cbn [exit_block cont]. unfold setstk. cbn [clocals cstack cstore firstn app].
    assert (HD : droppable (key, b)). { destruct (W7 _ Hin) as [(f & t & _ & X & X' & _)|(_ & X)]; [|exact X]. exfalso. apply Hni. cbn [fst] in X'. rewrite X'. apply in_map. unfold ks. change f with (fst (f, t)). apply in_map. exact X. }
    destruct HD as (HD1 & v & HD2 & HD3 & HD4). cbn [fst snd] in *. unfold tuple_default.
    eapply wp_lget; [lk|]. eapply wp_lget; [lk|]. apply wp_sub32; [lia|]. eapply wp_lget; [lk|]. wcall HE. change (VI32 (zlen key)) with (vlen key) at 1.
    eapply check_clarity_name_wp; [exact HE|intros _; cbn [smem with_mem]; replace (cur + 1 + zlen key - zlen key) with (cur + 1) by lia; exact Hkey| |unfold zlen in *; lia].
    rewrite (proj1 (clarity_name_iff _) HD1). unfold qcall. wcbn. apply wp_eqz32. cbn [b2z Z.eqb]. apply wp_brif_eqz; intros Hc; [|lia]. clear Hc.
    eapply wp_lget; [lk|]. eapply wp_lget; [lk|]. wcall HE.
    eapply (skip_value_wp E HE (with_mem st mz) e ltac:(lia) (fun _ => False)); [intros ? []|lia|exact HD2|rewrite HD3; intros ? []|cbn [smem with_mem]; rewrite <- HD4; exact Hval|rewrite <- HD4; lia|lia|].
    rewrite <- HD4. unfold qcall. wcbn. apply wp_ltee. apply wp_eqz32. apply wp_brif_bool; intros Hc; [|lia]. clear Hc. eapply wp_lget; [lk|]. apply wp_const. rewrite zlen_cons. apply wp_sub32; [lia|]. apply wp_ltee.
    match goal with |- WasmLogic.wp _ _ (mkcfg ?x _ _) _ => set (lz1 := x) end.
    assert (SO : forall j, seen ks (past ++ [(key, b)]) j = seen ks past j) by (apply seen_other; exact Hni).
    destruct (NEXT lz1 mz rp) as (N1 & N2).
    { unfold INV. cbv zeta. assert (CUR : a + 5 + zlen (flat_map item_bytes (past ++ [(key, b)])) = cur + 1 + zlen key + zlen b).
      { rewrite flat_map_app, zlen_app. cbn [flat_map]. rewrite app_nil_r. unfold item_bytes at 2. cbn [fst snd]. rewrite zlen_cons, zlen_app. unfold cur. lia. }
      unfold item in CUR |- *. rewrite CUR.
      split; [unfold lz1; do 5 (apply keep_new2; [lia|]); exact I1|]. split; [rewrite <- app_assoc; exact I0|]. split; [exact I2|]. split; [rewrite (usum_ext _ _ _ _ SO); exact I3|]. split; [exact I4|].
      split. { intros kk Hkk. rewrite map_app, count_app. cbn [map fst count_occ]. destruct (zlist_dec key (chars kk)) as [->|_]; [exfalso; apply Hni; apply in_map; exact Hkk|]. specialize (IC kk Hkk). unfold item in *. lia. }
      split. { eapply bitset_ext; [intros j; symmetry; apply SO|]. eapply bitset_keep; [|exact I5]. intros x Hx. specialize (Live _ Hx). unfold lz1. rewrite !lset_other by lia. reflexivity. }
      split. { intros i f t Hi Hs. rewrite SO in Hs. destruct (I6 i f t Hi Hs) as (v' & ws & J1 & J2 & J3). exists v', ws. split; [exact J1|]. split.
        - eapply lvals_same; [|exact J2]. intros x Hx. specialize (Livv _ (concat_in _ _ _ Hx)). unfold lz1. rewrite !lset_other by lia. reflexivity.
        - eapply rep_weaken; [|exact J3]. unfold P. cbv beta. intros x Hx. lia. }
      unfold lz1. split; [lk|]. split; [lk|]. split; [lk|]. rewrite lset_same by (rewrite ?lset_len; lia). do 2 f_equal. unfold item in *. lia. }
    apply wp_brif_eqz; intros Hc.
    + apply wp_nil. wst. apply wp_nil. wst. apply N1. destruct rest; [reflexivity|]. rewrite zlen_cons in Hc. pose proof (zlen_nonneg rest). lia.
    + cbn [qloop]. unfold setstk. cbn [clocals cstack cstore firstn]. destruct (N2 ltac:(intros ->; apply Hc; reflexivity)) as (z' & Z1 & Z2). exists z'. rewrite zlen_cons in Z1. split; [rewrite ?zlen_cons; exact Z1|exact Z2].
  - (* a key of the type *)
    intros i Hi Hnth. rewrite map_length, Kn in Hi. unfold qcall. wcbn. eapply wp_lget; [lk|]. eapply wp_lget; [lk|]. apply wp_add32; [lia|]. apply wp_lset. eapply wp_brtable; [reflexivity|]. rewrite seq_length. destruct (Z.ltb_spec (Z.of_nat i) (Z.of_nat n)); [|lia].
    rewrite Nat2Z.id, seq_nth by exact Hi. rewrite Nat.add_0_l. unfold setstk. cbn [clocals cstack cstore]. unfold npost. fold n in C2. rewrite C2, (proj2 (Nat.ltb_lt i n) Hi). cbn [clocals cstore].
    destruct (nth_error fs i) as [[f t]|] eqn:Ef; [|apply nth_error_None in Ef; unfold n in Hi; lia]. assert (Ekf : nth_error ks i = Some f) by (unfold ks; rewrite nth_error_map, Ef; reflexivity).
    assert (Hkf : key = chars f). { rewrite <- Hnth. apply nth_error_nth. rewrite nth_error_map, Ekf. reflexivity. }
    destruct (C3 i f t Ef) as (cd & la & lb & X1 & X2 & (X3 & X4) & X5). rewrite X5. clear X5. rewrite Nat.add_0_l.
    assert (HV : exists v, readable t v b /\ forall vs, o = Some (CTuple vs, bs) -> nth_error vs i = Some (f, v)).
    { destruct WD as [(vs' & Ho2 & _ & W5 & W6 & W8)|(Hno & _)].
      - destruct (fields_nth _ _ _ W8 W5 _ _ _ Ef) as (v & b' & Y1 & Y2 & Y4). rewrite <- Hkf in Y2.
        assert (CN : count_occ zlist_dec (map fst its) key = 1%nat) by (rewrite Hkf; apply W6; eapply nth_error_In; exact Ekf). rewrite I0 in CN, Y2. destruct (once past rest (key, b) CN) as (_ & O2). apply O2 in Y2. cbn [snd] in Y2. subst b'.
        exists v. split; [exact Y4|]. intros vs Ho'. assert (vs' = vs) as -> by congruence. exact Y1.
      - destruct (W7 _ Hin) as [(f' & t' & v & X5 & X6 & X7)|(X & _)]; cbn [fst snd] in *.
        + exists v. split; [|intros; congruence]. rewrite Hkf in X6. apply chars_inj in X6. subst f'. apply In_nth_error in X5 as (j & X5). assert (j = i) as ->; [|congruence].
          eapply NoDup_nth_error; [exact Hnd|unfold ks; rewrite map_length; apply nth_error_Some; congruence|]. unfold ks. rewrite !nth_error_map, X5, Ef. reflexivity.
        + exfalso. apply X. rewrite Hkf. apply in_map_iff. exists (f, t). split; [reflexivity|eapply nth_error_In; exact Ef]. }
    destruct HV as (v & Y3 & Y1).
    assert (Hq : (i / 32 < length bits)%nat). { rewrite P5. apply Nat.div_lt_upper_bound; [lia|]. pose proof (Nat.div_mod (n + 31) 32 ltac:(lia)). pose proof (Nat.mod_upper_bound (n + 31) 32 ltac:(lia)). lia. }
    set (x := nth (i / 32) bits O). assert (Hx : nth_error bits (i / 32) = Some x) by (apply nth_error_nth'; exact Hq). assert (Hxin := nth_error_In _ _ Hx). assert (Hxl := Live _ Hxin).
    destruct (bit_test _ _ _ i x I5 Hx) as (w & B1 & B2 & B3). unfold tuple_case. cbn [app].
    match goal with |- WasmLogic.wp _ _ (mkcfg ?y _ _) _ => set (lz1 := y) end.
    assert (Hlz1 : forall y, y <> ol -> y <> nm -> nth_error lz1 y = nth_error lz y) by (intros y Hy1 Hy2; unfold lz1; rewrite !lset_other by congruence; reflexivity).
    assert (Ll : length lz1 = length ls) by (unfold lz1; rewrite !lset_len; exact Lz).
    eapply wp_lget; [rewrite Hlz1 by lia; exact B1|]. apply wp_const. eapply wp_b32; [reflexivity|]. apply wp_brif_eqz; intros Hc.
    2:{ (* a repeated key *)
        cbn [cpost]. split; [lia|]. replace (n - i + 1 - (n - 1 - i))%nat with 2%nat by lia. unfold qblock. cbn [exit_block cont qloop]. unfold setstk. cbn [clocals cstack cstore firstn app].
        assert (Hs : seen ks past i = true). { destruct (seen ks past i) eqn:Es; [reflexivity|]. exfalso. apply Hc. apply B3. reflexivity. } apply (seen_in _ _ _ _ Ekf) in Hs. rewrite <- Hkf in Hs.
        destruct WD as [(vs & _ & _ & _ & W6 & _)|(Hno & _)].
        { exfalso. assert (CN : count_occ zlist_dec (map fst its) key = 1%nat) by (rewrite Hkf; apply W6; eapply nth_error_In; exact Ekf). rewrite I0 in CN. destruct (once past rest (key, b) CN) as (O1 & _). exact (O1 Hs). }
        eapply (FAILT _ _ (seen ks past)); [exact Hno| | |rewrite Hlz1 by lia; exact I10| |unfold lz1; lk|eapply only_weaken; [exact I4|lia|lia]].
        - unfold lz1. do 3 (apply keep_new2; [lia|]). exact I1.
        - eapply bitset_keep; [|exact I5]. intros y Hy. specialize (Live _ Hy). apply Hlz1; lia.
        - left. rewrite zlen_cons. lia. }
    assert (Hns : seen ks past i = false) by (apply B3; exact Hc). clear Hc.
    assert (HO : ~ In key (map fst past)) by (intros HX; rewrite Hkf in HX; apply (seen_in _ _ _ _ Ekf) in HX; congruence).
    assert (SO : forall j, seen ks (past ++ [(key, b)]) j = (seen ks past j || (j =? i)%nat)) by (apply (seen_key _ _ _ _ f); [exact Hnd|exact Ekf|exact Hkf]).
    pose proof (usum_done (seen ks past) fs O i f t Ef Hns) as HU. rewrite Nat.add_0_l in HU. rewrite <- (usum_ext _ _ _ _ SO) in HU. pose proof (usum_nonneg (seen ks (past ++ [(key, b)])) fs Hfok O) as HU0.
    pose proof (room_nonneg t (fields_ok_nth _ Hfok _ _ _ Ef)) as HRt.
    pose proof (lext_len _ _ X1) as Hla. pose proof (lext_len _ _ X2) as Hlb.
    eapply X4 with (a := cur + 1 + zlen key) (e := e) (r := rp) (K := K) (o := Some (v, b)); [unfold lz1; lk|rewrite Hlz1 by lia; exact I9|rewrite Hlz1 by lia; exact I8|lia| | | | | |]; cbn [smem with_mem].
    { eapply area_sub2 with (a := a) (r := r) (n := R); [unfold area; rewrite HSz; lia|lia|lia|lia|lia]. }
    { eapply only_tables; [exact I4|eapply off_sub; [exact HK|lia|lia]|]. eapply tables_nth; eauto. }
    { eapply off_sub; [exact HK|lia|lia]. }
    { split; [exact Y3|]. split; [exact Hval|lia]. }
    2:{ intros ls' m' ws (FX & _). discriminate FX. }
    intros lz2 m2 v2 b2 ws rp2 (S1 & S2 & S3 & S4 & S5 & S6 & S7 & S8 & S9 & S10). destruct S9 as (-> & ->). rewrite with_mem_twice. assert (HS2 := only_size _ _ _ _ S5).
    assert (Hlz2 : forall y, live l4 y -> y <> ol -> y <> rl -> nth_error lz2 y = nth_error lz1 y). { intros y Ly Na Nb. apply (lkeep_get _ _ _ _ S1). apply live_hide. split; [eapply lext_live; [exact X1|exact Ly]|]. cbn. intuition congruence. }
    assert (Ll2 : length lz2 = length ls) by (rewrite (lkeep_len _ _ _ S1); exact Ll).
    set (vi := nth i vss []) in *. assert (Hvi : length vi = length (clar2wasm_ty t)) by (apply V3; rewrite nth_error_map, Ef; reflexivity).
    assert (Hvr : forall y, In y vi -> (llen l1 <= y < rem)%nat) by (intros y Hy; apply Livv; eapply concat_in; exact Hy).
    eapply wp_lsets; [rewrite rev_length, Hvi; exact (rep_len _ _ _ _ _ S10)|]. rewrite rev_involutive. set (lz3 := setl lz2 vi ws).
    assert (Ll3 : length lz3 = length ls) by (unfold lz3; rewrite setl_len; exact Ll2).
    assert (Hlz3 : forall y, ~ In y vi -> nth_error lz3 y = nth_error lz2 y) by (intros y Hy; apply setl_other; exact Hy).
    assert (Hnv : forall y, (y < llen l1)%nat \/ (rem <= y)%nat -> ~ In y vi) by (intros y Hy HX; apply Hvr in HX; lia).
    apply wp_eqz32. cbn [Z.eqb b2z]. apply wp_brif_eqz; intros Hc; [|lia]. clear Hc.
    assert (B1' : nth_error lz3 x = Some (VI32 w)). { rewrite Hlz3 by (apply Hnv; left; auto). rewrite Hlz2 by (first [lia|auto]). rewrite Hlz1 by lia. exact B1. }
    eapply wp_lget; [exact B1'|]. apply wp_const. eapply wp_b32; [reflexivity|]. apply wp_lset.
    assert (Hrm : nth_error lz3 rem = Some (VI32 (@zlen item ((key, b) :: rest)))). { rewrite Hlz3 by (apply Hnv; right; lia). rewrite Hlz2 by (first [lia|auto]). rewrite Hlz1 by lia. exact I10. }
    eapply wp_lget; [rewrite lset_other by lia; exact Hrm|]. apply wp_const. rewrite zlen_cons. apply wp_sub32; [lia|]. apply wp_ltee.
    match goal with |- WasmLogic.wp _ _ (mkcfg ?y _ _) _ => set (lz4 := y) end.
    assert (Hlz4 : forall y, y <> x -> y <> rem -> nth_error lz4 y = nth_error lz3 y) by (intros y Hy1 Hy2; unfold lz4; rewrite !lset_other by congruence; reflexivity).
    destruct (NEXT lz4 m2 rp2) as (N1 & N2).
    { unfold INV. cbv zeta. assert (CUR : a + 5 + zlen (flat_map item_bytes (past ++ [(key, b)])) = cur + 1 + zlen key + zlen b).
      { rewrite flat_map_app, zlen_app. cbn [flat_map]. rewrite app_nil_r. unfold item_bytes at 2. cbn [fst snd]. rewrite zlen_cons, zlen_app. unfold cur. lia. }
      unfold item in CUR |- *. rewrite CUR.
      split. { unfold lz4. apply keep_new2; [lia|]. apply keep_new2; [lia|]. eapply lkeep_trans0 with (b := lz2).
        - eapply lkeep_trans0; [|eapply lkeep_hide2; [eapply lext_trans; [exact L4|exact X1]| |exact S1]; auto]. unfold lz1. do 3 (apply keep_new2; [lia|]). exact I1.
        - split; [congruence|]. intros y Hy. apply live_hide in Hy as (Hy & _). apply live_lt in Hy. apply Hlz3. apply Hnv. left. lia. }
      split; [rewrite <- app_assoc; exact I0|]. split; [lia|]. split; [unfold item in *; lia|].
      split. { eapply only_trans; [eapply only_weaken; [exact I4|lia|lia]|]. eapply only_weaken; [exact S5|lia|lia]. }
      split. { intros kk Hkk. rewrite map_app, count_app. cbn [map fst count_occ]. destruct (zlist_dec key (chars kk)) as [E'|_]; [|specialize (IC kk Hkk); unfold item in *; lia]. rewrite <- E'. apply (count_occ_not_In zlist_dec) in HO. unfold item in *. lia. }
      split. { eapply bitset_ext; [intros j; symmetry; apply SO|]. unfold lz4. eapply bitset_keep; [|eapply (bit_set lz3 bits (seen ks past) i x w); [|exact P4|exact Hx| |exact B1']].
        - intros y Hy. specialize (Live _ Hy). rewrite lset_other by lia. reflexivity.
        - eapply bitset_keep; [|exact I5]. intros y Hy. assert (Hy' := Live _ Hy). rewrite Hlz3 by (apply Hnv; left; auto). rewrite Hlz2 by (first [lia|auto]). apply Hlz1; lia.
        - intros y Hy. specialize (Live _ Hy). lia. }
      split.
      { intros j g t' Hj Hs. rewrite SO in Hs. destruct (Nat.eq_dec j i) as [->|Hne].
        - assert (g = f /\ t' = t) as (-> & ->) by (split; congruence). exists v, ws. split; [exact Y1|]. split.
          + change (nth i vss []) with vi. apply (lvals_same lz3); [|apply setl_get; [apply concat_nodup; exact V6|apply Forall_forall; intros y Hy; apply Hvr in Hy; lia|rewrite Hvi; exact (rep_len _ _ _ _ _ S10)]].
            intros y Hy. apply Hvr in Hy. assert (x < llen l1)%nat by auto. apply Hlz4; lia.
          + eapply rep_weaken; [|exact S10]. unfold P. cbv beta. intros y Hy. lia.
        - destruct (Nat.eqb_spec j i); [contradiction|]. rewrite orb_false_r in Hs. destruct (I6 j g t' Hj Hs) as (v' & ws' & J1 & J2 & J3). exists v', ws'. split; [exact J1|]. split.
          + eapply lvals_same; [|exact J2]. intros y Hy. assert (Hy' := Livv _ (concat_in _ _ _ Hy)). assert (x < llen l1)%nat by auto. rewrite Hlz4 by lia. rewrite Hlz3 by (intros HX; apply Hne; eapply concat_disjoint; [exact V6|exact Hy|exact HX]).
            rewrite Hlz2 by (first [lia|apply Lvv; eapply concat_in; exact Hy]). apply Hlz1; lia.
          + eapply rep_frame; [exact HS2| | |exact J3]; unfold P; cbv beta; intros y Hy; [|lia]. apply (proj2 S5). lia. }
      assert (Hxo : x <> ol /\ x <> el /\ x <> rl) by lia. destruct Hxo as (Hx1 & Hx2 & Hx3).
      split; [rewrite Hlz4 by lia; rewrite Hlz3 by (apply Hnv; left; lia); exact S2|].
      split; [rewrite Hlz4 by lia; rewrite Hlz3 by (apply Hnv; left; lia); exact S3|].
      split; [rewrite Hlz4 by lia; rewrite Hlz3 by (apply Hnv; left; lia); rewrite Hlz2 by (first [congruence|eapply lext_live; [exact L4|exact He]]); rewrite Hlz1 by lia; exact I9|].
      unfold lz4. rewrite lset_same by (rewrite lset_len; lia). do 2 f_equal. unfold item in *. lia. }
    apply wp_brif_eqz; intros Hc.
    + apply wp_br. cbn [cpost]. split; [lia|]. replace (n - i + 1 - (n - 1 - i))%nat with 2%nat by lia. unfold qblock. cbn [exit_block cont qloop]. unfold setstk. cbn [clocals cstack cstore firstn app]. apply N1. destruct rest; [reflexivity|]. rewrite zlen_cons in Hc. pose proof (zlen_nonneg rest). lia.
    + cbn [cpost]. split; [lia|]. replace (n - i - (n - 1 - i))%nat with 1%nat by lia. unfold qblock. cbn [exit_block cont qloop]. unfold setstk. cbn [clocals cstack cstore firstn app].
      destruct (N2 ltac:(intros ->; apply Hc; reflexivity)) as (z' & Z1 & Z2). exists z'. rewrite zlen_cons in Z1. split; [rewrite ?zlen_cons; exact Z1|exact Z2].
Qed.
End Code.
