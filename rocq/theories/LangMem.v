(** * Sequences in memory: copying, joining (proof support) *)
From Coq Require Import ZArith String List Bool Lia.
Import ListNotations.
From Verif Require Import Wasm Std StdEnv WasmLogic WasmTac Mem MemFacts Bytes Spec SpecBytes SpecUtf8 Clar Rep RepFacts Emit EmitFacts EmitProofs EqualProofs
  CallProofs Ast SpecLang Lang Typing LangFacts LangBase.
Open Scope list_scope.
Open Scope Z_scope.

Definition seg (a n : Z) : Z -> Prop := fun x => a <= x < a + n.
Definition por (P Q : Z -> Prop) : Z -> Prop := fun x => P x \/ Q x.

(** bytes per element *)
Definition unit_size (t : ty) : Z := match t with TUtf8 _ => 4 | TList _ t => get_type_size t | _ => 1 end.

Lemma be4_len c : length (be_bytes 4 c) = 4%nat.
Proof. reflexivity. Qed.
Lemma utf8_len cs : Z.of_nat (length (flat_map (be_bytes 4) cs)) = Z.of_nat (length cs) * 4.
Proof. induction cs as [|c cs IH]; [reflexivity|]. cbn [flat_map]. rewrite app_length, be4_len. cbn [length]. lia. Qed.

Lemma unit_nonneg t : 0 <= unit_size t.
Proof. destruct t; cbn; try lia. apply size_nonneg. Qed.

Lemma rep_seq m P t v ws : is_seq t = true -> rep m P t v ws ->
  exists o, ws = [VI32 o; VI32 (seq_len v * unit_size t)] /\ 0 <= o < m32 /\ 0 <= seq_len v * unit_size t < m32 /\
    o + seq_len v * unit_size t <= msize m <= m32 /\ inside P o (seq_len v * unit_size t).
Proof.
  intros Ht Hr. destruct t; try discriminate; destruct v; cbn [rep] in Hr; try contradiction; cbn [seq_len unit_size].
  - destruct Hr as (o & -> & H1 & H2 & H3 & H4). pose proof (holds_len _ _ _ H3). rewrite Z.mul_1_r. exists o. repeat split; auto; lia.
  - destruct Hr as (o & -> & H1 & H2 & H3 & H4). pose proof (holds_len _ _ _ H3). rewrite Z.mul_1_r. exists o. repeat split; auto; lia.
  - destruct Hr as (o & -> & H1 & H2 & H3 & H4). pose proof (holds_len _ _ _ H3). rewrite utf8_len in *. exists o. repeat split; auto; lia.
  - destruct Hr as (o & -> & H1 & H2 & H3 & H4 & _). rewrite words_size_ty in *. pose proof (size_nonneg t). exists o. repeat split; auto; try lia; nia.
Qed.

Lemma holds_shift m m' o d bs : msize m' = msize m -> 0 <= d -> d + Z.of_nat (length bs) <= msize m ->
  (forall i, 0 <= i < Z.of_nat (length bs) -> rd m' (d + i) = rd m (o + i)) -> holds m o bs -> holds m' d bs.
Proof.
  intros Hs Hd Hb Hc (H1 & H2 & H3). split; [exact Hd|]. rewrite Hs. split; [lia|].
  transitivity (bytes_at m o (length bs)); [|exact H3]. clear H3. assert (HG : forall n k, (k + n <= length bs)%nat -> bytes_at m' (d + Z.of_nat k) n = bytes_at m (o + Z.of_nat k) n).
  { induction n as [|n IH]; intros k Hk; [reflexivity|]. rewrite !bytes_at_S. f_equal; [apply Hc; lia|].
    specialize (IH (S k) ltac:(lia)). rewrite Nat2Z.inj_succ in IH. rewrite <- !Z.add_assoc. exact IH. }
  specialize (HG (length bs) 0%nat ltac:(lia)). cbn [Z.of_nat] in HG. rewrite !Z.add_0_r in HG. exact HG.
Qed.

Lemma words_at_len m a ws : words_at m a ws -> 0 <= a /\ a + Z.of_nat (length (words_bytes ws)) <= msize m.
Proof. intros H. apply holds_len in H. lia. Qed.

Lemma elems_shift m m' (P Q : Z -> Prop) t o d : msize m' = msize m -> (forall x, P x -> rd m' x = rd m x) -> (forall x, P x -> Q x) ->
  0 <= d -> forall vs q, 0 <= q -> d + q + Z.of_nat (length vs) * get_type_size t <= msize m ->
  (forall i, q <= i < q + Z.of_nat (length vs) * get_type_size t -> rd m' (d + i) = rd m (o + i)) ->
  rep_elems m P t vs (o + q) -> rep_elems m' Q t vs (d + q).
Proof.
  intros Hs Hm HPQ Hd. pose proof (size_nonneg t) as Hp. induction vs as [|v vs IH]; intros q Hq Hb Hc He; [exact I|].
  cbn [length] in *. rewrite Nat2Z.inj_succ, Z.mul_succ_l in *. cbn [rep_elems] in *. destruct He as ((ws & Hw & Hr) & He). rewrite words_size_ty in *.
  pose proof (rep_words_len _ _ _ _ _ Hr) as HL. assert (0 <= Z.of_nat (length vs) * get_type_size t) by nia. split.
  - exists ws. split; [|eapply rep_frame; eauto]. unfold words_at in *. eapply holds_shift; [exact Hs|lia|lia| |exact Hw].
    intros i Hi. rewrite <- !Z.add_assoc. apply Hc. lia.
  - rewrite <- Z.add_assoc in *. apply IH; auto; try lia. intros i Hi. apply Hc. lia.
Qed.

(** a copy of a sequence *)
Lemma copy_rep m m' (P : Z -> Prop) t v o d len : is_seq t = true -> rep m P t v [VI32 o; VI32 len] ->
  msize m' = msize m -> (forall x, P x -> rd m' x = rd m x) -> 0 <= d -> d + len <= msize m -> d < m32 ->
  (forall i, 0 <= i < len -> rd m' (d + i) = rd m (o + i)) -> rep m' (por P (seg d len)) t v [VI32 d; VI32 len].
Proof.
  intros Ht Hr Hs Hm Hd Hb Hd2 Hc.
  assert (HB : forall bs, rep_bytes m P bs [VI32 o; VI32 len] -> rep_bytes m' (por P (seg d len)) bs [VI32 d; VI32 len]).
  { intros bs (o1 & He & H1 & H2 & H3 & H4). injection He as <- ->. exists d. split; auto. split; [lia|]. split; auto.
    split; [eapply holds_shift; eauto|]. intros x Hx. right. exact Hx. }
  destruct t; try discriminate; destruct v; cbn [rep] in Hr |- *; try contradiction; auto.
  destruct Hr as (o1 & He & H1 & H2 & H3 & H4 & H5). injection He as <- ->. exists d. split; auto. split; [lia|]. split; auto.
  split; [rewrite Hs; lia|]. split; [intros x Hx; right; exact Hx|].
  change (rep_elems m P t vs o) in H5. change (rep_elems m' (por P (seg d (Z.of_nat (length vs) * words_size (clar2wasm_ty t)))) t vs d).
  rewrite words_size_ty in *. rewrite <- (Z.add_0_r d) at 2.
  apply (elems_shift m m' P _ t o d Hs Hm) with (q := 0); [intros x Hx; left; exact Hx|exact Hd|lia|lia| |rewrite Z.add_0_r; exact H5].
  intros i Hi. apply Hc. lia.
Qed.

Lemma elems_app m P t xs : forall ys a, rep_elems m P t xs a -> rep_elems m P t ys (a + Z.of_nat (length xs) * get_type_size t) -> rep_elems m P t (xs ++ ys) a.
Proof.
  induction xs as [|x xs IH]; intros ys a H1 H2; cbn [app length] in *.
  - replace (a + Z.of_nat 0 * get_type_size t) with a in H2 by lia. exact H2.
  - cbn [rep_elems] in *. destruct H1 as (H1 & H3). split; auto. apply IH; auto. rewrite words_size_ty.
    rewrite Nat2Z.inj_succ, Z.mul_succ_l in H2. replace (a + get_type_size t + Z.of_nat (length xs) * get_type_size t) with (a + (Z.of_nat (length xs) * get_type_size t + get_type_size t)) by lia. exact H2.
Qed.

Lemma holds_app2 m a xs ys : holds m a xs -> holds m (a + Z.of_nat (length xs)) ys -> holds m a (xs ++ ys).
Proof.
  intros (H1 & H2 & H3) (H4 & H5 & H6). unfold holds. rewrite app_length, Nat2Z.inj_add. split; [lia|]. split; [lia|].
  rewrite bytes_at_app. rewrite H3, H6. reflexivity.
Qed.

(** two adjacent sequences *)
Lemma join_rep m (P : Z -> Prop) t v w c a n1 n2 : is_seq t = true -> rep m P t v [VI32 a; VI32 n1] -> rep m P t w [VI32 (a + n1); VI32 n2] ->
  seq_concat v w = Some c -> msize m < m32 -> rep m P t c [VI32 a; VI32 (n1 + n2)].
Proof.
  intros Ht Hv Hw Hc Hsz.
  assert (HM : a + n1 + n2 <= msize m <= m32 /\ 0 <= a < m32 /\ 0 <= n1 /\ 0 <= n2 /\ (inside P a n1 /\ inside P (a + n1) n2) /\ (n1 + n2 < m32)).
  { destruct (rep_seq _ _ _ _ _ Ht Hv) as (o1 & E1 & A1 & A2 & A3 & A4). destruct (rep_seq _ _ _ _ _ Ht Hw) as (o2 & E2 & B1 & B2 & B3 & B4).
    injection E1 as <- ->. injection E2 as <- ->. split; [lia|]. split; [lia|]. split; [lia|]. split; [lia|]. split; [|lia]. split; auto. }
  destruct HM as (M1 & M2 & M3 & M4 & (M5 & M7) & M6).
  assert (HIn : inside P a (n1 + n2)).
  { intros x Hx. destruct (Z.lt_ge_cases x (a + n1)); [apply M5; lia|apply M7; lia]. }
  assert (HB : forall xs ys, rep_bytes m P xs [VI32 a; VI32 n1] -> rep_bytes m P ys [VI32 (a + n1); VI32 n2] -> rep_bytes m P (xs ++ ys) [VI32 a; VI32 (n1 + n2)]).
  { intros xs ys (o1 & E1 & A1 & A2 & A3 & A4) (o2 & E2 & B1 & B2 & B3 & B4). injection E1 as <- ->. injection E2 as <- ->.
    exists a. rewrite app_length, Nat2Z.inj_add. split; auto. split; auto. split; [lia|]. split; [apply holds_app2; auto|exact HIn]. }
  destruct t; try discriminate; destruct v; cbn [rep] in Hv; try contradiction; destruct w; cbn [rep] in Hw; try contradiction;
    cbn [seq_concat] in Hc; injection Hc as <-; cbn [rep]; auto.
  - rewrite flat_map_app. auto.
  - destruct Hv as (o1 & E1 & A1 & A2 & A3 & A4 & A5). destruct Hw as (o2 & E2 & B1 & B2 & B3 & B4 & B5). injection E1 as <- ->. injection E2 as <- ->.
    exists a. rewrite app_length, Nat2Z.inj_add, Z.mul_add_distr_r. split; auto. split; auto. split; [lia|]. split; [lia|]. split; [exact HIn|].
    match type of A5 with _ => change (rep_elems m P t vs a) in A5 end. change (rep_elems m P t vs0 (a + Z.of_nat (length vs) * words_size (clar2wasm_ty t))) in B5.
    change (rep_elems m P t (vs ++ vs0) a). rewrite words_size_ty in *. apply elems_app; auto.
Qed.

Lemma single_rep m (P : Z -> Prop) n t v a ws : words_at m a ws -> rep m P t v ws -> a < m32 -> msize m < m32 ->
  rep m (por P (seg a (get_type_size t))) (TList n t) (CList [v]) [VI32 a; VI32 (get_type_size t)].
Proof.
  intros Hw Hr Ha Hm. pose proof (words_at_len _ _ _ Hw) as HL. rewrite (rep_words_len _ _ _ _ _ Hr) in HL. pose proof (size_nonneg t).
  cbn [rep length]. exists a. rewrite words_size_ty. change (Z.of_nat 1) with 1. rewrite Z.mul_1_l. split; [reflexivity|]. split; [lia|]. split; [lia|]. split; [lia|].
  split; [intros x Hx; right; exact Hx|]. split; [|exact I]. exists ws. split; auto. eapply rep_weaken; [|exact Hr]. intros x Hx. left. exact Hx.
Qed.
Lemma empty_rep m (P : Z -> Prop) n t a : 0 <= a < m32 -> a <= msize m <= m32 -> rep m P (TList n t) (CList []) [VI32 a; VI32 0].
Proof.
  intros Ha Hm. cbn [rep length]. exists a. rewrite Z.mul_0_l. split; [reflexivity|]. split; [lia|]. split; [lia|]. split; [lia|].
  split; [intros x Hx; lia|exact I].
Qed.
