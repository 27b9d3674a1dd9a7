(** * Facts about representations, and the host reader *)
From Coq Require Import ZArith String List Bool Lia.
Import ListNotations.
From Verif Require Import Wasm StdEnv WasmTac Spec Mem MemFacts Bytes SpecBytes SpecUtf8 Clar Codec Rep.
Open Scope Z_scope.

Definition rep_fields (m : mem) (P : Z -> Prop) : list (string * ty) -> list (string * value) -> list val -> Prop :=
  fix go fs vs ws {struct fs} :=
    match fs, vs with
    | [], [] => ws = []
    | (k, t') :: fs, (k', v') :: vs => exists ws1 ws2, k = k' /\ ws = ws1 ++ ws2 /\ rep m P t' v' ws1 /\ go fs vs ws2
    | _, _ => False
    end.
Definition rep_elems (m : mem) (P : Z -> Prop) (t' : ty) : list value -> Z -> Prop :=
  fix go vs a {struct vs} :=
    match vs with
    | [] => True
    | v' :: vs => (exists ws', words_at m a ws' /\ rep m P t' v' ws') /\ go vs (a + words_size (clar2wasm_ty t'))
    end.
Definition fields_ok : list (string * ty) -> Prop :=
  fix go fs := match fs with [] => True | (_, t) :: fs => ty_ok t /\ go fs end.
Definition fields_typed : list (string * ty) -> list (string * value) -> Prop :=
  fix go fs vs {struct fs} :=
    match fs, vs with
    | [], [] => True
    | (k, t) :: fs, (k', v) :: vs => k = k' /\ has_type t v /\ go fs vs
    | _, _ => False
    end.
Definition fsize (fs : list (string * ty)) : Z := fold_right (fun f n => get_type_size (snd f) + n) 0 fs.

Lemma rep_tuple m P fs vs ws : rep m P (TTuple fs) (CTuple vs) ws = rep_fields m P fs vs ws.
Proof. reflexivity. Qed.

Lemma words_size_app a b : words_size (a ++ b) = words_size a + words_size b.
Proof. induction a as [|x a IH]; cbn [words_size fold_right app]; [reflexivity|]. fold (words_size (a ++ b)) (words_size a). rewrite IH. lia. Qed.

Lemma words_size_ty t : words_size (clar2wasm_ty t) = get_type_size t.
Proof.
  induction t using ty_ind'; try reflexivity.
  - cbn [clar2wasm_ty get_type_size]. rewrite <- IHt. reflexivity.
  - cbn [clar2wasm_ty get_type_size]. change (words_size (T32 :: ?x)) with (4 + words_size x).
    rewrite words_size_app, IHt1, IHt2. lia.
  - cbn [clar2wasm_ty get_type_size]. induction H as [|[k t] fs Ht H IH]; [reflexivity|].
    cbn [flat_map fold_right snd] in *. rewrite words_size_app, IH, Ht. reflexivity.
Qed.

Lemma ty_ok_tuple fs : ty_ok (TTuple fs) = (fs <> [] /\ NoDup (map fst fs) /\ fields_ok fs).
Proof. reflexivity. Qed.

Lemma size_nonneg t : 0 <= get_type_size t.
Proof.
  induction t using ty_ind'; cbn [get_type_size]; try lia.
  induction H as [|[k t] fs Ht H IH]; cbn [fold_right snd] in *; lia.
Qed.
Lemma fsize_nonneg fs : 0 <= fsize fs.
Proof. induction fs as [|[k t] fs IH]; cbn; [lia|]. pose proof (size_nonneg t). unfold fsize in IH. lia. Qed.

Lemma size_pos t : ty_ok t -> 4 <= get_type_size t.
Proof.
  induction t using ty_ind'; intros Hok; cbn [get_type_size]; try lia.
  - pose proof (size_nonneg t). lia.
  - pose proof (size_nonneg t1). pose proof (size_nonneg t2). lia.
  - rewrite ty_ok_tuple in Hok. destruct Hok as (Hne & _ & Hf). destruct fs as [|[k t] fs]; [congruence|].
    inversion H; subst. cbn [fold_right snd] in *. destruct Hf as (Hf1 & _). pose proof (fsize_nonneg fs). unfold fsize in *.
    specialize (H2 Hf1). lia.
Qed.

Lemma wtyped_len t w : wtyped t w -> Z.of_nat (length (word_bytes w)) = match t with T32 => 4 | T64 => 8 | T128 => 16 end.
Proof. destruct t, w; cbn [wtyped word_bytes]; intros H; try contradiction; rewrite len_le_bytes; reflexivity. Qed.

Lemma words_bytes_len ts ws : Forall2 wtyped ts ws -> Z.of_nat (length (words_bytes ws)) = words_size ts.
Proof.
  induction 1 as [|t w ts ws Hw H IH]; [reflexivity|]. cbn [words_bytes flat_map words_size fold_right].
  rewrite app_length, Nat2Z.inj_add, (wtyped_len _ _ Hw). unfold words_bytes in IH. rewrite IH. reflexivity.
Qed.

Lemma words_bytes_app a b : words_bytes (a ++ b) = words_bytes a ++ words_bytes b.
Proof. unfold words_bytes. apply flat_map_app. Qed.

Lemma words_at_app m a ws1 ws2 : words_at m a (ws1 ++ ws2) <->
  words_at m a ws1 /\ words_at m (a + Z.of_nat (length (words_bytes ws1))) ws2.
Proof. unfold words_at. rewrite words_bytes_app. apply holds_app. Qed.

Lemma words_at_cons m a w ws : words_at m a (w :: ws) <->
  holds m a (word_bytes w) /\ words_at m (a + Z.of_nat (length (word_bytes w))) ws.
Proof. unfold words_at. cbn [words_bytes flat_map]. apply holds_app. Qed.

Lemma inside_weaken (P Q : Z -> Prop) a n : (forall x, P x -> Q x) -> inside P a n -> inside Q a n.
Proof. unfold inside. auto. Qed.

Lemma F2_len {A B} (R : A -> B -> Prop) a b : Forall2 R a b -> length a = length b.
Proof. induction 1; cbn; auto. Qed.

(** ** Representations are well typed *)
Lemma Forall2_app_tys {A B} (R : A -> B -> Prop) a b c d : Forall2 R a c -> Forall2 R b d -> Forall2 R (a ++ b) (c ++ d).
Proof. apply Forall2_app. Qed.

Lemma mod64_range z : 0 <= z mod 2 ^ 64 < m64.
Proof. change m64 with (2 ^ 64). apply Z.mod_pos_bound. lia. Qed.

Lemma rep_bytes_typed m P bs ws : rep_bytes m P bs ws -> Forall2 wtyped [T32; T32] ws.
Proof. intros (o & -> & Ho & Hl & _). constructor; [exact Ho|]. constructor; [cbn; lia|constructor]. Qed.

Lemma words_size_nonneg ts : 0 <= words_size ts.
Proof. induction ts as [|[] ts IH]; cbn [words_size fold_right]; [lia| | |]; unfold words_size in IH; lia. Qed.

Lemma rep_typed m P t : forall v ws, rep m P t v ws -> Forall2 wtyped (clar2wasm_ty t) ws.
Proof.
  induction t using ty_ind'; intros v ws Hr; destruct v; cbn [rep] in Hr; try contradiction; cbn [clar2wasm_ty];
    try (eapply rep_bytes_typed; exact Hr).
  - subst. constructor; [apply mod64_range|]. constructor; [apply mod64_range|constructor].
  - subst. constructor; [apply mod64_range|]. constructor; [apply mod64_range|constructor].
  - subst. constructor; [|constructor]. destruct b; cbn; lia.
  - destruct Hr as (_ & Hr). eapply rep_bytes_typed; exact Hr.
  - destruct Hr as (o & -> & Ho & Hl & _). constructor; [exact Ho|]. constructor; [|constructor]. cbn.
    pose proof (words_size_nonneg (clar2wasm_ty t)). nia.
  - destruct Hr as (ws' & -> & H'). constructor; [cbn; lia|exact H'].
  - destruct Hr as (ws' & -> & H'). constructor; [cbn; lia|eauto].
  - destruct Hr as (ws1 & ws2 & -> & H1 & H2). constructor; [cbn; lia|]. apply Forall2_app; eauto.
  - destruct Hr as (ws1 & ws2 & -> & H1 & H2). constructor; [cbn; lia|]. apply Forall2_app; eauto.
  - change (rep_fields m P fs fs0 ws) in Hr. revert fs0 ws Hr. induction H as [|[k t] fs Ht H IH]; intros vs ws Hr.
    + destruct vs; cbn in Hr; [subst; constructor|contradiction].
    + destruct vs as [|[k' v'] vs]; cbn [rep_fields] in Hr; [contradiction|].
      destruct Hr as (ws1 & ws2 & -> & -> & H1 & H2). cbn [flat_map snd]. apply Forall2_app; [eapply Ht; eauto|eapply IH; exact H2].
Qed.

Lemma rep_words_len m P t v ws : rep m P t v ws -> Z.of_nat (length (words_bytes ws)) = get_type_size t.
Proof. intros H. rewrite (words_bytes_len _ _ (rep_typed _ _ _ _ _ H)). apply words_size_ty. Qed.
Lemma rep_len m P t v ws : rep m P t v ws -> length ws = length (clar2wasm_ty t).
Proof. intros H. symmetry. eapply F2_len. eapply rep_typed; eauto. Qed.

(** ** Frame and weakening *)
Lemma rep_bytes_frame m m' (P Q : Z -> Prop) bs ws : msize m' = msize m -> (forall x, P x -> rd m' x = rd m x) -> (forall x, P x -> Q x) ->
  rep_bytes m P bs ws -> rep_bytes m' Q bs ws.
Proof.
  intros Hs Ha HPQ (o & -> & Ho & Hl & Hh & Hi). exists o. split; [reflexivity|]. split; [exact Ho|]. split; [exact Hl|]. split.
  - apply (holds_ext m m' o bs Hs); auto.
  - eapply inside_weaken; eauto.
Qed.

Lemma words_at_frame m m' (P : Z -> Prop) a ws : msize m' = msize m -> (forall x, P x -> rd m' x = rd m x) ->
  inside P a (Z.of_nat (length (words_bytes ws))) -> words_at m a ws -> words_at m' a ws.
Proof. intros Hs Ha Hi H. apply (holds_ext m m'); auto. Qed.

Lemma rep_frame m m' (P Q : Z -> Prop) t : msize m' = msize m -> (forall x, P x -> rd m' x = rd m x) -> (forall x, P x -> Q x) ->
  forall v ws, rep m P t v ws -> rep m' Q t v ws.
Proof.
  intros Hs Ha HPQ. induction t using ty_ind'; intros v ws Hr; destruct v; cbn [rep] in *; try contradiction; auto;
    try (eapply rep_bytes_frame; eauto; fail).
  - destruct Hr as (E & Hr). split; auto. eapply rep_bytes_frame; eauto.
  - destruct Hr as (o & -> & Ho & Hl & Hb & Hi & He). exists o. split; auto. split; auto. split; auto. split; [rewrite Hs; auto|].
    split; [eapply inside_weaken; eauto|].
    change (rep_elems m P t vs o) in He. change (rep_elems m' Q t vs o). clear Ho Hl Hb. revert o Hi He.
    induction vs as [|v vs IHvs]; intros o Hi He; [exact I|]. cbn [rep_elems] in *. destruct He as ((ws' & Hw & Hr) & He).
    pose proof (words_size_nonneg (clar2wasm_ty t)) as Hws.
    assert (HS : words_size (clar2wasm_ty t) + Z.of_nat (length vs) * words_size (clar2wasm_ty t) = Z.of_nat (length (v :: vs)) * words_size (clar2wasm_ty t)).
    { cbn [length]. rewrite Nat2Z.inj_succ. lia. }
    split.
    + exists ws'. split; [|apply IHt; auto]. apply (words_at_frame m m' P); auto.
      rewrite (rep_words_len _ _ _ _ _ Hr), <- words_size_ty. intros x Hx. apply Hi. nia.
    + apply IHvs; auto. intros x Hx. apply Hi. nia.
  - destruct Hr as (ws' & -> & Hr). exists ws'. split; auto.
  - destruct Hr as (ws1 & ws2 & -> & H1 & H2). exists ws1, ws2. auto.
  - destruct Hr as (ws1 & ws2 & -> & H1 & H2). exists ws1, ws2. auto.
  - change (rep_fields m P fs fs0 ws) in Hr. change (rep_fields m' Q fs fs0 ws). revert fs0 ws Hr.
    induction H as [|[k t] fs Ht H IH]; intros vs ws Hr.
    + destruct vs; auto.
    + destruct vs as [|[k' v'] vs]; cbn [rep_fields] in *; [contradiction|].
      destruct Hr as (ws1 & ws2 & E & -> & H1 & H2). exists ws1, ws2. split; auto.
Qed.

Lemma rep_weaken m (P Q : Z -> Prop) t v ws : (forall x, P x -> Q x) -> rep m P t v ws -> rep m Q t v ws.
Proof. intros H. apply rep_frame; auto. Qed.

Lemma rep_elems_frame m m' (P Q : Z -> Prop) t vs : forall o, msize m' = msize m -> (forall x, P x -> rd m' x = rd m x) -> (forall x, P x -> Q x) ->
  inside P o (Z.of_nat (length vs) * words_size (clar2wasm_ty t)) -> rep_elems m P t vs o -> rep_elems m' Q t vs o.
Proof.
  induction vs as [|v vs IHvs]; intros o Hs Ha HPQ Hi He; [exact I|]. cbn [rep_elems] in *. destruct He as ((ws' & Hw & Hr) & He).
  pose proof (words_size_nonneg (clar2wasm_ty t)) as Hws.
  assert (HS : words_size (clar2wasm_ty t) + Z.of_nat (length vs) * words_size (clar2wasm_ty t) = Z.of_nat (length (v :: vs)) * words_size (clar2wasm_ty t)).
  { cbn [length]. rewrite Nat2Z.inj_succ. lia. }
  split.
  - exists ws'. split; [|eapply rep_frame; eauto]. apply (words_at_frame m m' P); auto.
    rewrite (rep_words_len _ _ _ _ _ Hr), <- words_size_ty. intros x Hx. apply Hi. nia.
  - apply IHvs; auto. intros x Hx. apply Hi. nia.
Qed.
