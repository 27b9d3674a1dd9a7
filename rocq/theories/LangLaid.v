(** * Elements of a sequence laid out in memory (proof support) *)
From Coq Require Import ZArith String List Bool Lia.
Import ListNotations.
From Verif Require Import ReadProofs Wasm Std StdEnv WasmLogic WasmTac Mem MemFacts Bytes Spec SpecBytes SpecUtf8 ArithProofs Clar Rep RepFacts Emit EmitFacts EmitProofs Equal EqualProofs
  CallProofs ArgProofs Ast SpecLang Lang Typing LangFacts LangBase LangCtl LangEarly LangMem LangSeq LangList LangConcat LangSlice.
Open Scope list_scope.
Open Scope Z_scope.

(** the elements of [v] start at [d]; what they refer to lies in [P] *)
Definition laid (m : mem) (P : Z -> Prop) (t : ty) (v : value) (d : Z) : Prop :=
  match t, v with
  | TBuff _, CBuff bs => holds m d bs
  | TAscii _, CAscii bs => holds m d bs
  | TUtf8 _, CUtf8 cs => holds m d (flat_map (be_bytes 4) cs)
  | TList _ te, CList vs => rep_elems m P te vs d
  | _, _ => False
  end.

Lemma rep_laid m P t v o n : is_seq t = true -> rep m P t v [VI32 o; VI32 n] -> laid m P t v o.
Proof.
  intros Ht Hr. destruct t; try discriminate; destruct v; cbn [rep] in Hr; try contradiction; cbn [laid].
  1-3: destruct Hr as (o1 & He & H1 & H2 & H3 & H4); injection He as <- _; exact H3.
  destruct Hr as (o1 & He & H1 & H2 & H3 & H4 & H5). injection He as <- _. exact H5.
Qed.
Lemma laid_rep m (P : Z -> Prop) t v d n : is_seq t = true -> laid m P t v d -> n = seq_len v * unit_size t -> 0 <= d < m32 -> d + n <= msize m < m32 -> rep m (por P (seg d n)) t v [VI32 d; VI32 n].
Proof.
  intros Ht Hl -> Hd Hb. destruct t; try discriminate; destruct v; cbn [laid] in Hl; try contradiction; cbn [rep seq_len unit_size] in *.
  - rewrite Z.mul_1_r in *. exists d. split; [reflexivity|]. split; [lia|]. split; [lia|]. split; [exact Hl|]. intros x Hx. right. exact Hx.
  - rewrite Z.mul_1_r in *. exists d. split; [reflexivity|]. split; [lia|]. split; [lia|]. split; [exact Hl|]. intros x Hx. right. exact Hx.
  - exists d. rewrite utf8_len. split; [reflexivity|]. split; [lia|]. split; [lia|]. split; [exact Hl|]. intros x Hx. right. exact Hx.
  - exists d. rewrite words_size_ty at 1 2 3 4. split; [reflexivity|]. split; [lia|]. split; [lia|]. split; [lia|]. split; [intros x Hx; right; exact Hx|].
    match goal with |- ?g => change (rep_elems m (por P (seg d (Z.of_nat (length vs) * get_type_size t))) t vs d) end.
    revert Hl. generalize (Z.of_nat (length vs) * get_type_size t). intros n0. generalize d at 1 3. induction vs as [|x vs IH]; intros a Hl; [exact I|].
    cbn [rep_elems] in *. destruct Hl as ((ws & W1 & W2) & Hl). split; [|apply IH; [cbn [length] in Hb; pose proof (size_nonneg t); nia|exact Hl]].
    exists ws. split; [exact W1|]. eapply rep_weaken; [|exact W2]. intros y Hy. left. exact Hy.
Qed.

Lemma elems_move m m' (P Q : Z -> Prop) t vs : forall d, rep_elems m P t vs d -> msize m' = msize m -> (forall a, P a -> rd m' a = rd m a) ->
  (forall a, d <= a < d + Z.of_nat (length vs) * get_type_size t -> rd m' a = rd m a) -> (forall a, P a -> Q a) -> rep_elems m' Q t vs d.
Proof.
  pose proof (size_nonneg t) as Hp. induction vs as [|x vs IH]; intros d H Hs H1 H2 H3; [exact I|]. cbn [rep_elems length] in *. rewrite words_size_ty in *.
  rewrite Nat2Z.inj_succ, Z.mul_succ_l in H2. assert (0 <= Z.of_nat (length vs) * get_type_size t) by nia. destruct H as ((ws & W1 & W2) & H). split.
  - exists ws. pose proof (rep_words_len _ _ _ _ _ W2) as HL. rewrite ?words_size_ty in HL. split; [|eapply rep_frame; eauto]. unfold words_at in *.
    apply (holds_ext m); [exact Hs| |exact W1]. intros a Ha. apply H2. lia.
  - apply IH; auto. intros a Ha. apply H2. lia.
Qed.
Lemma laid_frame m m' (P Q : Z -> Prop) t v d : laid m P t v d -> msize m' = msize m -> (forall a, P a -> rd m' a = rd m a) ->
  (forall a, seg d (seq_len v * unit_size t) a -> rd m' a = rd m a) -> (forall a, P a -> Q a) -> laid m' Q t v d.
Proof.
  unfold seg. intros Hl Hs H1 H2 H3. destruct t; cbn [laid] in *; try contradiction; destruct v; try contradiction; cbn [seq_len unit_size] in *.
  - apply (holds_ext m); [exact Hs| |exact Hl]. intros a Ha. apply H2. lia.
  - apply (holds_ext m); [exact Hs| |exact Hl]. intros a Ha. apply H2. lia.
  - apply (holds_ext m); [exact Hs| |exact Hl]. intros a Ha. rewrite utf8_len in Ha. apply H2. lia.
  - eapply elems_move; eauto.
Qed.
Lemma laid_copy m (P : Z -> Prop) t v o d n : is_seq t = true -> rep m P t v [VI32 o; VI32 n] -> (forall x, P x -> ~ seg d n x) ->
  0 <= d -> d + n <= msize m -> laid (mcopy m d o n) P t v d.
Proof.
  intros Ht Hr HP Hd Hb. destruct (rep_seq _ _ _ _ _ Ht Hr) as (o1 & He & A1 & A2 & A3 & A4). injection He as <- Hn.
  assert (HC : forall i, 0 <= i < n -> rd (mcopy m d o n) (d + i) = rd m (o + i)).
  { intros i Hi. rewrite rd_mcopy. destruct (Z.leb_spec d (d + i)), (Z.ltb_spec (d + i) (d + n)); try lia. cbn [andb]. f_equal. lia. }
  assert (HK : forall x, P x -> rd (mcopy m d o n) x = rd m x).
  { intros x Hx. apply rd_mcopy_other. apply HP in Hx. unfold seg in Hx. lia. }
  apply rep_laid in Hr; [|exact Ht]. destruct t; cbn [laid] in *; try contradiction; destruct v; try contradiction; cbn [seq_len unit_size] in *.
  - eapply holds_shift; [apply msize_mcopy|lia|lia| |exact Hr]. intros i Hi. apply HC. lia.
  - eapply holds_shift; [apply msize_mcopy|lia|lia| |exact Hr]. intros i Hi. apply HC. lia.
  - eapply holds_shift; [apply msize_mcopy|lia|rewrite utf8_len; lia| |exact Hr]. rewrite utf8_len. intros i Hi. apply HC. lia.
  - rewrite <- (Z.add_0_r d) at 2. eapply (elems_shift m (mcopy m d o n) P P t o d); [apply msize_mcopy|exact HK|auto|lia|lia|lia| |rewrite Z.add_0_r; exact Hr].
    intros i Hi. apply HC. lia.
Qed.
Lemma laid_slice m P t v d i j : is_seq t = true -> laid m P t v d -> 0 <= i <= j -> j <= seq_len v -> laid m P t (seq_slice v i j) (d + i * unit_size t).
Proof.
  intros Ht Hl Hi Hj. destruct t; try discriminate; cbn [laid] in Hl; destruct v; try contradiction; cbn [seq_len unit_size seq_slice laid] in *.
  - destruct (sublist_split bs i j Hi Hj) as (x & y & Hs & Hx & Hy). rewrite Hs in Hl. apply holds_app in Hl. destruct Hl as (_ & Hl). apply holds_app in Hl. destruct Hl as (Hl & _). rewrite Hx in Hl. rewrite Z.mul_1_r. exact Hl.
  - destruct (sublist_split bs i j Hi Hj) as (x & y & Hs & Hx & Hy). rewrite Hs in Hl. apply holds_app in Hl. destruct Hl as (_ & Hl). apply holds_app in Hl. destruct Hl as (Hl & _). rewrite Hx in Hl. rewrite Z.mul_1_r. exact Hl.
  - destruct (sublist_split cs i j Hi Hj) as (x & y & Hs & Hx & Hy). rewrite Hs, !flat_map_app in Hl. apply holds_app in Hl. destruct Hl as (_ & Hl). apply holds_app in Hl. destruct Hl as (Hl & _). rewrite utf8_len, Hx in Hl. exact Hl.
  - destruct (sublist_split vs i j Hi Hj) as (x & y & Hs & Hx & Hy). rewrite Hs in Hl. apply elems_split in Hl. destruct Hl as (_ & Hl). apply elems_split in Hl. destruct Hl as (Hl & _). rewrite Hx in Hl. exact Hl.
Qed.
Lemma laid_app m P t v w c d : laid m P t v d -> laid m P t w (d + seq_len v * unit_size t) -> seq_concat v w = Some c -> laid m P t c d.
Proof.
  intros Hv Hw Hc. destruct t; cbn [laid] in Hv; try contradiction; destruct v; try contradiction; destruct w; cbn [laid seq_len unit_size] in Hw; try contradiction;
    cbn [seq_concat] in Hc; injection Hc as <-; cbn [laid].
  - apply holds_app2; [exact Hv|]. rewrite Z.mul_1_r in Hw. exact Hw.
  - apply holds_app2; [exact Hv|]. rewrite Z.mul_1_r in Hw. exact Hw.
  - rewrite flat_map_app. apply holds_app2; [exact Hv|]. rewrite utf8_len. exact Hw.
  - apply elems_app; auto.
Qed.
Lemma laid_bound m P t v d : laid m P t v d -> (forall n te, t <> TList n te) -> 0 <= d /\ d + seq_len v * unit_size t <= msize m.
Proof.
  intros H Hn. destruct t; cbn [laid] in H; try contradiction; destruct v; try contradiction; cbn [seq_len unit_size].
  - apply holds_len in H. lia.
  - apply holds_len in H. lia.
  - apply holds_len in H. rewrite utf8_len in H. lia.
  - exfalso. eapply Hn. reflexivity.
Qed.

(** one element as a sequence *)
Definition single (t : ty) (x : value) : value := match t with TList _ _ => CList [x] | _ => x end.
Lemma put_concat t v i w c : is_seq t = true -> has_type t v -> 0 <= i < seq_len v -> seq_put v i w = Some c ->
  (forall n te, t = TList n te -> has_type te w) ->
  exists c1, seq_concat (seq_slice v 0 i) (single t w) = Some c1 /\ seq_concat c1 (seq_slice v (i + 1) (seq_len v)) = Some c.
Proof.
  intros Ht Hty Hi Hp Hw. destruct t; try discriminate; destruct v; cbn [has_type] in Hty; try contradiction; cbn [seq_put seq_len] in *.
  1-3: destruct w; try discriminate; match goal with H : context [match ?l with [] => None | _ => _ end] |- _ => destruct l as [|x [|]]; try discriminate end;
    injection Hp as <-; cbn [seq_slice single seq_concat]; eexists; split; [reflexivity|]; cbn [seq_concat]; f_equal; f_equal; unfold put, sublist;
    rewrite <- app_assoc; rewrite Z.sub_0_r, Z2Nat.inj_0; cbn [skipn app]; f_equal; f_equal;
    replace (Z.to_nat (i + 1)) with (S (Z.to_nat i)) by lia; rewrite firstn_all2; [reflexivity|rewrite skipn_length; lia].
  injection Hp as <-. cbn [seq_slice single seq_concat]. eexists. split; [reflexivity|]. cbn [seq_concat]. f_equal. f_equal. unfold put, sublist.
  rewrite <- app_assoc. rewrite Z.sub_0_r, Z2Nat.inj_0. cbn [skipn app]. f_equal. f_equal.
  replace (Z.to_nat (i + 1)) with (S (Z.to_nat i)) by lia. rewrite firstn_all2; [reflexivity|rewrite skipn_length; lia].
Qed.
Lemma slice_len v i j : 0 <= i <= j -> j <= seq_len v -> (exists t, is_seq t = true /\ has_type t v) -> seq_len (seq_slice v i j) = j - i.
Proof.
  intros Hi Hj (t & Ht & Hty). destruct t; try discriminate; destruct v; cbn [has_type] in Hty; try contradiction; cbn [seq_len seq_slice] in *.
  - destruct (sublist_split bs i j Hi Hj) as (x & y & _ & _ & Hy). exact Hy.
  - destruct (sublist_split bs i j Hi Hj) as (x & y & _ & _ & Hy). exact Hy.
  - destruct (sublist_split cs i j Hi Hj) as (x & y & _ & _ & Hy). exact Hy.
  - destruct (sublist_split vs i j Hi Hj) as (x & y & _ & _ & Hy). exact Hy.
Qed.
(** an element written over another one *)
Lemma laid_put m m' (P : Z -> Prop) t v i w c d a : is_seq t = true -> has_type t v -> laid m P t v d -> 0 <= i < seq_len v -> seq_put v i w = Some c ->
  (forall n te, t = TList n te -> has_type te w) -> a = d + i * unit_size t -> only_changes m m' a (unit_size t) -> (forall x, P x -> ~ seg d (seq_len v * unit_size t) x) ->
  laid m' P t (single t w) a -> seq_len (single t w) = 1 -> laid m' P t c d.
Proof.
  intros Ht Hty Hl Hi Hp Hw Ha (O1 & O2) HP Hx Hx1. pose proof (unit_nonneg t) as HU.
  destruct (put_concat _ _ _ _ _ Ht Hty Hi Hp Hw) as (c1 & C1 & C2). assert (HT : exists t, is_seq t = true /\ has_type t v) by eauto.
  assert (L1 : seq_len (seq_slice v 0 i) = i) by (rewrite slice_len; [lia|lia|lia|exact HT]).
  assert (L2 : seq_len (seq_slice v (i + 1) (seq_len v)) = seq_len v - (i + 1)) by (rewrite slice_len; [lia|lia|lia|exact HT]).
  assert (HPa : forall x, P x -> rd m' x = rd m x) by (intros x Hq; apply O2; apply HP in Hq; unfold seg in Hq; nia).
  assert (B1 : laid m' P t (seq_slice v 0 i) d).
  { eapply laid_frame; [pose proof (laid_slice _ _ _ _ _ 0 i Ht Hl ltac:(lia) ltac:(lia)) as HH; rewrite Z.mul_0_l, Z.add_0_r in HH; exact HH|exact O1|exact HPa| |auto].
    unfold seg. rewrite L1. intros x Hq. apply O2. nia. }
  assert (B2 : laid m' P t (seq_slice v (i + 1) (seq_len v)) (d + (i + 1) * unit_size t)).
  { eapply laid_frame; [apply (laid_slice _ _ _ _ _ (i + 1) (seq_len v) Ht Hl); lia|exact O1|exact HPa| |auto].
    unfold seg. rewrite L2. intros x Hq. apply O2. nia. }
  assert (Lc1 : seq_len c1 = i + 1) by (rewrite (seq_concat_len _ _ _ C1); lia).
  eapply laid_app; [eapply laid_app; [exact B1|rewrite L1, <- Ha; exact Hx|exact C1]|rewrite Lc1; exact B2|exact C2].
Qed.
Lemma put_forall {A} (P : A -> Prop) l i x : Forall P l -> P x -> Forall P (put l i x).
Proof. intros H Hx. unfold put. apply Forall_app. split; [apply firstn_forall; exact H|]. constructor; [exact Hx|apply skipn_forall; exact H]. Qed.
Lemma put_len {A} (l : list A) i x : 0 <= i < Z.of_nat (length l) -> length (put l i x) = length l.
Proof. intros H. unfold put. rewrite app_length, firstn_length. cbn [length]. rewrite skipn_length. lia. Qed.
Lemma put_type t v i w c : is_seq t = true -> has_type t v -> 0 <= i < seq_len v -> seq_put v i w = Some c -> has_type (elem_ty t) w -> has_type t c /\ seq_len c = seq_len v.
Proof.
  intros Ht Hty Hi Hp Hw. destruct t; try discriminate; destruct v; cbn [has_type] in Hty; try contradiction; cbn [seq_put seq_len elem_ty] in *.
  1-3: destruct w; try discriminate; match goal with H : context [match ?l with [] => None | _ => _ end] |- _ => destruct l as [|x [|]]; try discriminate end;
    injection Hp as <-; cbn [has_type seq_len] in *; rewrite put_len by exact Hi; (split; [|reflexivity]); destruct Hty as (T1 & T2); (split; [exact T1|]);
    apply put_forall; [exact T2|]; destruct Hw as (_ & Hw); inversion Hw; assumption.
  injection Hp as <-. cbn [has_type seq_len]. rewrite put_len by exact Hi. split; [|reflexivity]. destruct Hty as (T1 & T2). split; [exact T1|]. apply put_forall; auto.
Qed.
