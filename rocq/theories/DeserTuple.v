(** * The emitted deserialization code for tuples (proof support): parts *)
From Coq Require Import ZArith String Ascii List Bool Lia Sorted.
Import ListNotations.
From Verif Require Import Wasm Std StdEnv WasmLogic WasmTac Spec Mem MemFacts Bytes SpecBytes SpecUtf8 Clar Rep RepFacts Emit CallProofs EmitFacts EmitProofs
  ReadProofs Equal EqualProofs Utf8Proofs Utf8Dec ConvProofs NameProofs NameSearch BeProofs SpecSer SpecSkip SkipProofs SerProofs PropSer SpecDeser Deser DeserProofs DeserSeq DeserCtl DeserList ZBits.
Open Scope string_scope.
Open Scope list_scope.
Open Scope Z_scope.

(** ** Items *)
Definition readable_fields (its : list item) : list (string * ty) -> list (string * value) -> Prop :=
  fix go fs vs {struct fs} :=
    match fs, vs with
    | (k, t) :: fs, (_, v) :: vs => (exists b, In (chars k, b) its /\ readable t v b) /\ go fs vs
    | _, _ => True
    end.
Lemma fields_nth its fs : forall vs, readable_fields its fs vs -> map fst vs = map fst fs -> forall i k t, nth_error fs i = Some (k, t) ->
  exists v b, nth_error vs i = Some (k, v) /\ In (chars k, b) its /\ readable t v b.
Proof.
  induction fs as [|[k t] fs IH]; intros [|[k' v] vs] H E i k0 t0 Hi; try discriminate; [destruct i; discriminate|].
  cbn [map fst] in E. apply cons_split in E as (-> & E). destruct H as ((b & B1 & B2) & H). destruct i as [|i]; cbn [nth_error] in Hi |- *; [|eapply IH; eauto].
  assert (k = k0 /\ t = t0) as (-> & ->) by (split; congruence). eauto.
Qed.
Lemma count_app (l r : list (list Z)) k : count_occ zlist_dec (l ++ r) k = (count_occ zlist_dec l k + count_occ zlist_dec r k)%nat.
Proof. induction l as [|x l IH]; cbn [app count_occ]; [reflexivity|]. rewrite IH. destruct (zlist_dec x k); reflexivity. Qed.
(** an item whose key occurs once *)
Lemma once (past rest : list item) (it : item) : count_occ zlist_dec (map fst (past ++ it :: rest)) (fst it) = 1%nat ->
  ~ In (fst it) (map fst past) /\ forall b, In (fst it, b) (past ++ it :: rest) -> b = snd it.
Proof.
  intros H. rewrite map_app, count_app in H. cbn [map count_occ] in H. destruct (zlist_dec (fst it) (fst it)); [|contradiction].
  assert (H1 : ~ In (fst it) (map fst past)). { intros HI. apply (count_occ_In zlist_dec) in HI. unfold item in *. lia. }
  assert (H2 : ~ In (fst it) (map fst rest)). { intros HI. apply (count_occ_In zlist_dec) in HI. unfold item in *. lia. }
  split; [exact H1|]. intros b Hb. apply in_app_or in Hb as [Hb|[Hb|Hb]].
  - exfalso. apply H1. change (fst it) with (fst (fst it, b)). apply in_map. exact Hb.
  - rewrite Hb. reflexivity.
  - exfalso. apply H2. change (fst it) with (fst (fst it, b)). apply in_map. exact Hb.
Qed.
Lemma nodup_chars ks : NoDup ks -> NoDup (map chars ks).
Proof.
  induction 1 as [|k ks Hk H IH]; cbn [map]; constructor; [|exact IH]. intros HI. apply in_map_iff in HI as (k' & E & HI). apply chars_inj in E. congruence.
Qed.
Lemma enough_items ks (its : list item) : NoDup ks -> (forall k, In k ks -> count_occ zlist_dec (map fst its) (chars k) = 1%nat) -> zlen ks <= zlen its.
Proof.
  intros Hn H. assert (L : (length (map chars ks) <= length (map fst its))%nat).
  { apply NoDup_incl_length; [apply nodup_chars; exact Hn|]. intros x Hx. apply in_map_iff in Hx as (k & <- & Hk). apply (count_occ_In zlist_dec). rewrite (H k Hk). lia. }
  rewrite !map_length in L. unfold zlen, item in *. lia.
Qed.

(** ** The fields that have been read *)
Definition seen (ks : list string) (past : list item) (i : nat) : bool :=
  match nth_error ks i with Some k => if in_dec zlist_dec (chars k) (map fst past) then true else false | None => false end.
Lemma seen_none ks i : seen ks [] i = false.
Proof. unfold seen. destruct (nth_error ks i); reflexivity. Qed.
Lemma seen_in ks past i k : nth_error ks i = Some k -> seen ks past i = true <-> In (chars k) (map fst past).
Proof. intros H. unfold seen. rewrite H. destruct (in_dec _ _ _); split; auto; discriminate. Qed.
Lemma seen_over ks past i : (length ks <= i)%nat -> seen ks past i = false.
Proof. intros H. unfold seen. apply nth_error_None in H. rewrite H. reflexivity. Qed.
Lemma seen_app ks (past : list item) (it : item) j k : nth_error ks j = Some k -> seen ks (past ++ [it]) j = true <-> seen ks past j = true \/ fst it = chars k.
Proof.
  intros H. rewrite !(seen_in _ _ _ _ H), map_app, in_app_iff. cbn [map In]. intuition.
Qed.
Lemma seen_key ks (past : list item) (it : item) i k : NoDup ks -> nth_error ks i = Some k -> fst it = chars k -> forall j, seen ks (past ++ [it]) j = (seen ks past j || (j =? i)%nat).
Proof.
  intros Hn Hi Hk j. destruct (nth_error ks j) as [k'|] eqn:Ej.
  2:{ unfold seen. rewrite Ej. destruct (Nat.eqb_spec j i) as [->|]; [congruence|reflexivity]. }
  apply eq_true_iff_eq. rewrite (seen_app _ _ _ _ _ Ej), orb_true_iff, Nat.eqb_eq. rewrite Hk. split; (intros [H|H]; [left; exact H|right]).
  - apply chars_inj in H. subst k'. eapply NoDup_nth_error; [exact Hn|apply nth_error_Some; congruence|congruence].
  - congruence.
Qed.
Lemma seen_other ks (past : list item) (it : item) : ~ In (fst it) (map chars ks) -> forall j, seen ks (past ++ [it]) j = seen ks past j.
Proof.
  intros H j. destruct (nth_error ks j) as [k'|] eqn:Ej; [|unfold seen; rewrite Ej; reflexivity].
  apply eq_true_iff_eq. rewrite (seen_app _ _ _ _ _ Ej). split; [|auto]. intros [HI|HI]; [exact HI|]. exfalso. apply H. rewrite HI. apply in_map. eapply nth_error_In; eauto.
Qed.
(** room for the fields not yet read *)
Fixpoint usum (dn : nat -> bool) (i : nat) (fs : list (string * ty)) : Z :=
  match fs with [] => 0 | f :: fs => (if dn i then 0 else room (snd f)) + usum dn (S i) fs end.
Lemma usum_ext dn dn' : forall fs i, (forall j, dn j = dn' j) -> usum dn i fs = usum dn' i fs.
Proof. induction fs as [|f fs IH]; intros i H; [reflexivity|]. cbn [usum]. rewrite H, (IH _ H). reflexivity. Qed.
Lemma usum_all fs : forall i dn, (forall j, dn j = false) -> usum dn i fs = fold_right (fun f n => room (snd f) + n) 0 fs.
Proof. induction fs as [|f fs IH]; intros i dn H; [reflexivity|]. cbn [usum fold_right]. rewrite H, (IH _ _ H). reflexivity. Qed.
Lemma usum_nonneg dn fs : fields_ok fs -> forall i, 0 <= usum dn i fs.
Proof.
  induction fs as [|[k t] fs IH]; intros H i; cbn [usum]; [lia|]. destruct H as (H1 & H2). specialize (IH H2 (S i)). pose proof (room_nonneg t H1). cbn [snd]. destruct (dn i); lia.
Qed.
Lemma usum_done dn fs : forall i j k t, nth_error fs j = Some (k, t) -> dn (i + j)%nat = false ->
  usum (fun x => dn x || (x =? i + j)%nat) i fs = usum dn i fs - room t.
Proof.
  induction fs as [|f fs IH]; intros i j k t Hj Hd; [destruct j; discriminate|]. destruct j as [|j]; cbn [nth_error] in Hj; cbn [usum].
  - assert (f = (k, t)) as -> by congruence. rewrite Nat.add_0_r in *. rewrite Nat.eqb_refl, orb_true_r, Hd. cbn [snd].
    assert (X : forall fs i', (i < i')%nat -> usum (fun x => dn x || (x =? i)%nat) i' fs = usum dn i' fs).
    { clear. induction fs as [|f fs IH]; intros i' H; [reflexivity|]. cbn [usum]. rewrite IH by lia. destruct (Nat.eqb_spec i' i); [lia|]. rewrite orb_false_r. reflexivity. }
    rewrite X by lia. lia.
  - replace (i + S j)%nat with (S i + j)%nat in * by lia. rewrite (IH _ _ _ _ Hj Hd). destruct (Nat.eqb_spec i (S i + j)); [lia|]. rewrite orb_false_r. lia.
Qed.
Lemma tables_nth tab m K fs : tables_fields tab m K fs -> forall i k t, nth_error fs i = Some (k, t) -> tables tab m K t.
Proof.
  induction fs as [|[k t] fs IH]; intros H i k0 t0 Hi; [destruct i; discriminate|]. destruct H as (H1 & H2). destruct i; cbn [nth_error] in Hi; [congruence|]. eapply IH; eauto.
Qed.
Lemma fields_ok_nth fs : fields_ok fs -> forall i k t, nth_error fs i = Some (k, t) -> ty_ok t.
Proof. induction fs as [|[k t] fs IH]; intros H i k0 t0 Hi; [destruct i; discriminate|]. destruct H as (H1 & H2). destruct i; cbn [nth_error] in Hi; [congruence|]. eapply IH; eauto. Qed.

(** ** Bits *)
Lemma land_pow w i : 0 <= i -> (Z.land w (2 ^ i) = 0 <-> Z.testbit w i = false).
Proof.
  intros Hi. split; intros H.
  - apply (f_equal (fun z => Z.testbit z i)) in H. rewrite Z.land_spec, Z.pow2_bits_true, andb_true_r, Z.bits_0 in H by lia. exact H.
  - apply Z.bits_inj'. intros n Hn. rewrite Z.land_spec, Z.bits_0. destruct (Z.eq_dec n i) as [->|Hne]; [rewrite H; reflexivity|]. rewrite Z.pow2_bits_false by lia. apply andb_false_r.
Qed.
Lemma lor_pow w i j : 0 <= i -> Z.testbit (Z.lor w (2 ^ i)) j = Z.testbit w j || (j =? i).
Proof. intros Hi. rewrite Z.lor_spec. f_equal. destruct (Z.eqb_spec j i) as [->|Hn]; [apply Z.pow2_bits_true; lia|apply Z.pow2_bits_false; lia]. Qed.
Lemma bits_bound w : 0 <= w -> (forall j, 32 <= j -> Z.testbit w j = false) -> w < m32.
Proof.
  intros H0 H. destruct (Z.eq_dec w 0) as [->|Hne]; [lia|]. change m32 with (2 ^ 32). apply Z.log2_lt_cancel. rewrite Z.log2_pow2 by lia.
  destruct (Z.lt_ge_cases (Z.log2 w) 32) as [|Hl]; [assumption|]. specialize (H _ Hl). rewrite Z.bit_log2 in H by lia. discriminate.
Qed.
Lemma full_word w (n : nat) : (0 < n <= 32)%nat -> 0 <= w < m32 -> (forall b, (b < 32)%nat -> Z.testbit w (Z.of_nat b) = (b <? n)%nat) -> w = 2 ^ Z.of_nat n - 1.
Proof.
  intros Hn Hw H. rewrite Z.sub_1_r, <- Z.ones_equiv. apply Z.bits_inj'. intros j Hj. rewrite Z.testbit_ones_nonneg by lia. destruct (Z.lt_ge_cases j 32) as [Hj2|Hj2].
  - specialize (H (Z.to_nat j) ltac:(lia)). rewrite Z2Nat.id in H by lia. rewrite H. destruct (Nat.ltb_spec (Z.to_nat j) n), (Z.ltb_spec j (Z.of_nat n)); lia.
  - rewrite (testbit_high w 32 j); [|lia|change (2 ^ 32) with m32; lia|lia]. symmetry. apply Z.ltb_ge. lia.
Qed.

(** the words of the bitset *)
Definition bitset (ls : list val) (bits : list nat) (dn : nat -> bool) : Prop :=
  forall j x, nth_error bits j = Some x -> exists w, nth_error ls x = Some (VI32 w) /\ 0 <= w < m32 /\ forall b, (b < 32)%nat -> Z.testbit w (Z.of_nat b) = dn (32 * j + b)%nat.
Lemma bitset_ext ls bits dn dn' : (forall j, dn j = dn' j) -> bitset ls bits dn -> bitset ls bits dn'.
Proof. intros H HB j x Hj. destruct (HB j x Hj) as (w & W1 & W2 & W3). exists w. split; [exact W1|]. split; [exact W2|]. intros b Hb. rewrite <- H. auto. Qed.
Lemma bitset_keep ls ls' bits dn : (forall x, In x bits -> nth_error ls' x = nth_error ls x) -> bitset ls bits dn -> bitset ls' bits dn.
Proof. intros H HB j x Hj. destruct (HB j x Hj) as (w & W). exists w. rewrite (H x) by (eapply nth_error_In; eauto). exact W. Qed.
Lemma bit_test ls bits dn i x : bitset ls bits dn -> nth_error bits (i / 32) = Some x -> exists w, nth_error ls x = Some (VI32 w) /\ 0 <= w < m32 /\ (Z.land w (bit_of i) = 0 <-> dn i = false).
Proof.
  intros HB Hj. destruct (HB _ _ Hj) as (w & W1 & W2 & W3). exists w. split; [exact W1|]. split; [exact W2|]. unfold bit_of. rewrite land_pow by lia.
  pose proof (Nat.mod_upper_bound i 32 ltac:(lia)) as Hm. rewrite W3 by exact Hm. rewrite <- (Nat.div_mod i 32) by lia. reflexivity.
Qed.
Lemma bit_set ls bits dn i x w : bitset ls bits dn -> NoDup bits -> nth_error bits (i / 32) = Some x -> (forall y, In y bits -> (y < length ls)%nat) -> nth_error ls x = Some (VI32 w) ->
  bitset (lset ls x (VI32 (Z.lor w (bit_of i)))) bits (fun j => dn j || (j =? i)%nat).
Proof.
  intros HB Hn Hx Hlt Hw j y Hj. pose proof (Nat.mod_upper_bound i 32 ltac:(lia)) as Hm. pose proof (Nat.div_mod i 32 ltac:(lia)) as Hdm. destruct (HB _ _ Hj) as (w' & W1 & W2 & W3). destruct (Nat.eq_dec y x) as [->|Hne].
  - assert (j = (i / 32)%nat) as -> by (eapply NoDup_nth_error; [exact Hn|apply nth_error_Some; congruence|congruence]). assert (w' = w) as -> by congruence.
    exists (Z.lor w (bit_of i)). split; [rewrite lset_same; [reflexivity|]; apply Hlt; eapply nth_error_In; eauto|]. unfold bit_of. assert (HT : forall q, 0 <= q -> Z.testbit (Z.lor w (2 ^ Z.of_nat (i mod 32))) q = Z.testbit w q || (q =? Z.of_nat (i mod 32))) by (intros q Hq; apply lor_pow; lia). split.
    + assert (0 <= Z.lor w (2 ^ Z.of_nat (i mod 32))) by (apply Z.lor_nonneg; split; [lia|apply Z.pow_nonneg; lia]). split; [assumption|]. apply bits_bound; [assumption|]. intros q Hq. rewrite HT by lia.
      rewrite (testbit_high w 32 q); [|lia|change (2 ^ 32) with m32; lia|lia]. cbn [orb]. apply Z.eqb_neq. lia.
    + intros b Hb. rewrite HT by lia. rewrite W3 by exact Hb. f_equal. destruct (Z.eqb_spec (Z.of_nat b) (Z.of_nat (i mod 32))), (Nat.eqb_spec (32 * (i / 32) + b) i); lia.
  - exists w'. split; [rewrite lset_other by congruence; exact W1|]. split; [exact W2|]. intros b Hb. rewrite W3 by exact Hb. destruct (Nat.eqb_spec (32 * j + b) i) as [He|_]; [|rewrite orb_false_r; reflexivity].
    exfalso. apply Hne. assert (j = (i / 32)%nat) as ->; [|congruence]. apply (Nat.div_unique i 32 j b); lia.
Qed.

Section Code.
Variable tab : list string -> Z.
Context {HS : Type} (E : env HS) (HE : has_std E).
Notation wp := (wp E).
Notation deser_right := (deser_right tab E).

(** ** The switch *)
Definition cpost (k : nat) (Q : outcome HS -> Prop) (o : outcome HS) : Prop := match o with OBr d s => (k <= d)%nat /\ Q (OBr (d - k) s) | _ => False end.
Definition npost (cs : list (list instr)) (Q : outcome HS -> Prop) (o : outcome HS) : Prop :=
  match o with
  | OBr j s => if (j <? length cs)%nat then wp (nth j cs []) (mkcfg (clocals s) [] (cstore s)) (cpost (length cs - 1 - j) Q) else Q (OBr (j - length cs) s)
  | _ => False
  end.
Lemma wp_nest cs : forall blk ls st Q, wp blk (mkcfg ls [] st) (npost cs Q) -> wp (nest blk cs) (mkcfg ls [] st) Q.
Proof.
  induction cs as [|c cs IH]; intros blk ls st Q H; cbn [nest].
  - eapply wp_mono; [exact H|]. intros o Ho. destruct o; cbn [npost length Nat.ltb Nat.leb] in Ho; try contradiction. rewrite Nat.sub_0_r in Ho. exact Ho.
  - apply IH. apply wp_block. wst. eapply wp_mono; [exact H|]. intros o Ho. destruct o as [|j s| | | |]; cbn [npost] in Ho; try contradiction. destruct j as [|j]; cbn [exit_block cont].
    + cbn [length] in Ho. change (0 <? S (length cs))%nat with true in Ho. cbn [nth] in Ho. unfold setstk. cbn [firstn app]. eapply wp_mono; [exact Ho|]. intros o Hc. destruct o as [|d s'| | | |]; cbn [cpost] in Hc; try contradiction.
      destruct Hc as (H1 & H2). cbn [npost]. replace (S (length cs) - 1 - 0)%nat with (length cs) in * by lia. destruct (Nat.ltb_spec d (length cs)); [lia|]. exact H2.
    + cbn [npost length nth] in Ho |- *. change (S j <? S (length cs))%nat with (j <? length cs)%nat in Ho. destruct (Nat.ltb_spec j (length cs)).
      * replace (length cs - 1 - j)%nat with (S (length cs) - 1 - S j)%nat by lia. exact Ho.
      * exact Ho.
Qed.

(** ** The locals *)
Lemma field_locals_ok ts : forall l vss l', field_locals ts l = (vss, l') -> lwf l ->
  lext l l' /\ length vss = length ts /\ (forall i t, nth_error ts i = Some t -> length (nth i vss []) = length (clar2wasm_ty t)) /\
  Forall (live l') (concat vss) /\ Forall (fun i => (llen l <= i)%nat) (concat vss) /\ NoDup (concat vss).
Proof.
  induction ts as [|t ts IH]; intros l vss l' H Hw; cbn [field_locals] in H.
  - assert (Hc := f_equal fst H). assert (Hl' := f_equal snd H). cbn [fst snd] in Hc, Hl'. subst vss l'. split; [apply lext_refl; auto|]. split; [reflexivity|]. split; [intros [|i] t; discriminate|]. cbn [concat]. split; [constructor|]. split; constructor.
  - destruct (add_locals (clar2wasm_ty t) l) as [is l1] eqn:E1. destruct (field_locals ts l1) as [iss l2] eqn:E2.
    assert (Hc := f_equal fst H). assert (Hl' := f_equal snd H). cbn [fst snd] in Hc, Hl'. subst vss l'.
    destruct (add_locals_ok _ _ _ _ E1 Hw) as (A1 & A2 & A3 & A4 & A5 & A6). destruct (IH _ _ _ E2 (lext_wf _ _ A1)) as (B1 & B2 & B3 & B4 & B5 & B6).
    split; [eapply lext_trans; eauto|]. split; [cbn [length]; congruence|]. split; [intros [|i] t' Hi; cbn [nth_error nth] in *; [congruence|auto]|]. cbn [concat].
    split; [apply Forall_app; split; [eapply Forall_impl; [|exact A2]; intros x Hx; eapply lext_live; [exact B1|exact Hx]|exact B4]|].
    split; [apply Forall_app; split; [exact A6|]; eapply Forall_impl; [|exact B5]; cbv beta; intros x Hx; pose proof (lext_len _ _ A1); lia|].
    apply NoDup_app_split. split; [exact A4|]. split; [exact B6|]. intros x H1 H2. rewrite Forall_forall in A2, B5. specialize (A2 _ H1). specialize (B5 _ H2). apply live_lt in A2. lia.
Qed.

Definition deser_cases (n : nat) (bits : list nat) (rem ol el rl : nat) : list (string * ty) -> nat -> list (list nat) -> lst -> list (list instr) * lst :=
  fix go (fs : list (string * ty)) (i : nat) (vss : list (list nat)) (l : lst) {struct fs} : list (list instr) * lst :=
    match fs with
    | [] => ([], l)
    | (_, t') :: fs =>
        let '(cd, l) := deserialize_from_memory tab t' ol el rl l in
        let '(cs, l) := go fs (S i) (tl vss) l in
        (tuple_case n i (nth (i / 32) bits O) rem cd (hd [] vss) :: cs, l)
    end.
Lemma deser_cases_ok n bits rem ol el rl fs : Forall (fun f => deser_right (snd f)) fs -> fields_ok fs -> ol <> el -> ol <> rl -> el <> rl ->
  forall i vss l cases l', deser_cases n bits rem ol el rl fs i vss l = (cases, l') -> lwf l -> live l ol -> live l el -> live l rl ->
  lext l l' /\ length cases = length fs /\ forall j k t, nth_error fs j = Some (k, t) -> exists cd la lb, lext l la /\ lext lb l' /\ deserializes tab E t cd la lb ol el rl /\
    nth j cases [] = tuple_case n (i + j) (nth ((i + j) / 32) bits O) rem cd (nth j vss []).
Proof.
  intros F FO D1 D2 D3. induction fs as [|[k t] fs IH]; intros i vss l cases l' H Hw Ho He Hr; cbn [deser_cases] in H.
  - assert (Hc := f_equal fst H). assert (Hl' := f_equal snd H). cbn [fst snd] in Hc, Hl'. subst cases l'. split; [apply lext_refl; auto|]. split; [reflexivity|]. intros [|j] ? ?; discriminate.
  - destruct (deserialize_from_memory tab t ol el rl l) as [cd l1] eqn:E1. destruct (deser_cases n bits rem ol el rl fs (S i) (tl vss) l1) as [cs l2] eqn:E2.
    assert (Hc := f_equal fst H). assert (Hl' := f_equal snd H). cbn [fst snd] in Hc, Hl'. subst cases l'. inversion F as [|? ? F1 F2]; subst. destruct FO as (FO1 & FO2). cbn [snd] in F1.
    specialize (F1 FO1 _ _ _ _ _ _ E1 Hw Ho He Hr D1 D2 D3). assert (X := proj1 F1).
    destruct (IH F2 FO2 _ _ _ _ _ E2 (lext_wf _ _ X) (lext_live _ _ _ X Ho) (lext_live _ _ _ X He) (lext_live _ _ _ X Hr)) as (B1 & B2 & B3).
    split; [eapply lext_trans; eauto|]. split; [cbn [length]; congruence|]. intros [|j] k' t' Hj; cbn [nth_error nth] in *.
    + assert (t = t') as <- by congruence. exists cd, l, l1. split; [apply lext_refl; auto|]. split; [exact B1|]. split; [exact F1|]. rewrite Nat.add_0_r. destruct vss; reflexivity.
    + destruct (B3 j k' t' Hj) as (cd' & la & lb & C1 & C2 & C3 & C4). exists cd', la, lb. split; [eapply lext_trans; eauto|]. split; [exact C2|]. split; [exact C3|].
      rewrite C4. replace (S i + j)%nat with (i + S j)%nat by lia. destruct vss; [destruct j; reflexivity|reflexivity].
Qed.

(** clearing the bitset *)
Lemma clear_ok bits : forall js ls k (st : store HS) Q, (forall x, In x bits -> (x < length ls)%nat) ->
  (forall ls', length ls' = length ls -> (forall y, ~ In y bits -> nth_error ls' y = nth_error ls y) -> bitset ls' bits (fun _ => false) -> wp js (mkcfg ls' k st) Q) ->
  wp (flat_map (fun b => [Const (VI32 0); LSet b]) bits ++ js) (mkcfg ls k st) Q.
Proof.
  assert (G : forall bits js ls k (st : store HS) Q, (forall x, In x bits -> (x < length ls)%nat) ->
    (forall ls', length ls' = length ls -> (forall y, ~ In y bits -> nth_error ls' y = nth_error ls y) -> (forall y, In y bits -> nth_error ls' y = Some (VI32 0)) -> wp js (mkcfg ls' k st) Q) ->
    wp (flat_map (fun b => [Const (VI32 0); LSet b]) bits ++ js) (mkcfg ls k st) Q).
  { clear bits. induction bits as [|b bits IH]; intros js ls k st Q Hlt HW; cbn [flat_map app]; [apply HW; auto; intros y []|]. apply wp_const. apply wp_lset. apply IH; [intros x Hx; rewrite lset_len; apply Hlt; right; exact Hx|].
    intros ls' H1 H2 H3. rewrite lset_len in H1. apply HW; [exact H1| |].
    - intros y Hy. rewrite H2 by (intros X; apply Hy; right; exact X). apply lset_other. intros ->. apply Hy. left. reflexivity.
    - intros y [<-|Hy]; [|auto]. destruct (in_dec Nat.eq_dec b bits) as [Hi|Hi]; [auto|]. rewrite H2 by exact Hi. apply lset_same. apply Hlt. left. reflexivity. }
  intros js ls k st Q Hlt HW. apply G; [exact Hlt|]. intros ls' H1 H2 H3. apply HW; auto. intros j x Hj. exists 0. split; [apply H3; eapply nth_error_In; eauto|]. split; [lia|]. intros b _. apply Z.bits_0.
Qed.
(** testing it *)
Lemma full_ok bits : forall js ls k (st : store HS) Q, (forall x, In x bits -> nth_error ls x = Some (VI32 (m32 - 1))) ->
  wp js (mkcfg ls (VI32 1 :: k) st) Q -> wp (flat_map (fun b => [LGet b; Const (VI32 (m32 - 1)); R32 Eq; B32 And]) bits ++ js) (mkcfg ls (VI32 1 :: k) st) Q.
Proof.
  induction bits as [|b bits IH]; intros js ls k st Q H HW; cbn [flat_map app]; [exact HW|]. eapply wp_lget; [apply H; left; reflexivity|]. apply wp_const. apply wp_r32. cbn [irel]. rewrite Z.eqb_refl. eapply wp_b32; [reflexivity|].
  change (Z.land 1 (b2z true)) with 1. apply IH; [intros x Hx; apply H; right; exact Hx|exact HW].
Qed.

(** the fields read, together *)
Lemma fields_rep m P lz fs : forall vs vss, map fst vs = map fst fs -> length vss = length fs ->
  (forall i k t, nth_error fs i = Some (k, t) -> exists v ws, nth_error vs i = Some (k, v) /\ lvals lz (nth i vss []) ws /\ rep m P t v ws) ->
  exists wl, lvals lz (concat vss) wl /\ rep_fields m P fs vs wl.
Proof.
  induction fs as [|[k t] fs IH]; intros [|[k' v] vs] [|is vss] E1 E2 H; try discriminate.
  - exists []. split; [constructor|reflexivity].
  - cbn [map fst] in E1. apply cons_split in E1 as (-> & E1). destruct (IH vs vss E1 ltac:(cbn [length] in E2; lia)) as (wl & W1 & W2). { intros i. exact (H (S i)). }
    destruct (H O k t eq_refl) as (v' & ws & V1 & V2 & V3). cbn [nth_error nth] in V1, V2. assert (v' = v) as -> by congruence. exists (ws ++ wl). cbn [concat]. split; [apply Forall2_app; assumption|].
    cbn [rep_fields]. exists ws, wl. auto.
Qed.
End Code.
