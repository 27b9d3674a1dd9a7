(** * Facts about types and values used by the compiler proof (proof support) *)
From Coq Require Import ZArith String List Bool Lia.
Import ListNotations.
From Verif Require Import Wasm StdEnv WasmTac Spec Mem Bytes SpecBytes SpecUtf8 Clar Rep RepFacts Equal Ast SpecLang Lang Typing.
Open Scope Z_scope.

Lemma list_eqb_eq {A} (f : A -> A -> bool) (Hf : forall a b, f a b = true -> a = b) x : forall y, list_eqb f x y = true -> x = y.
Proof.
  induction x as [|a x IH]; intros [|b y] H; cbn in H; try discriminate; auto.
  apply andb_prop in H as (H1 & H2). f_equal; auto.
Qed.
Lemma vt_eqb_eq a b : vt_eqb a b = true -> a = b.
Proof. destruct a, b; cbn; congruence. Qed.
Lemma Zs_eqb_eq x y : list_eqb Z.eqb x y = true -> x = y.
Proof. apply list_eqb_eq. intros a b. apply Z.eqb_eq. Qed.

(** ** [widens] *)
Definition widens_fields : list (string * ty) -> list (string * ty) -> bool :=
  fix go x y {struct x} :=
    match x, y with
    | [], [] => true
    | (k, a) :: x, (k', b) :: y => String.eqb k k' && widens a b && go x y
    | _, _ => false
    end.
Lemma widens_tuple x y : widens (TTuple x) (TTuple y) = widens_fields x y.
Proof. reflexivity. Qed.

Lemma widens_wasm t : forall t', widens t t' = true -> clar2wasm_ty t' = clar2wasm_ty t.
Proof.
  induction t using ty_ind'; intros [] H0; cbn in H0; try discriminate; cbn [clar2wasm_ty]; auto.
  - f_equal; auto.
  - apply andb_prop in H0 as (H1 & H2). rewrite (IHt1 _ H1), (IHt2 _ H2). reflexivity.
  - change (widens_fields fs fs0 = true) in H0. revert fs0 H0. induction H as [|[k t] fs Ht H IH]; intros [|[k' t'] fs'] H0; cbn in H0; try discriminate; auto.
    apply andb_prop in H0 as (H1 & H2). apply andb_prop in H1 as (H1 & H3). cbn [flat_map snd]. rewrite (Ht _ H3), (IH _ H2). reflexivity.
Qed.

Lemma widens_size t t' : widens t t' = true -> get_type_size t' = get_type_size t.
Proof. intros H. rewrite <- !words_size_ty, (widens_wasm _ _ H). reflexivity. Qed.

Lemma widens_has_type t : forall t' v, widens t t' = true -> has_type t v -> has_type t' v.
Proof.
  induction t using ty_ind'; intros [] v H0 Hv; cbn in H0; try discriminate; destruct v; cbn [has_type] in *; try contradiction; auto.
  - apply Zs_eqb_eq in H0. subst. exact Hv.
  - apply Z.leb_le in H0. destruct Hv; split; auto; lia.
  - apply Z.leb_le in H0. destruct Hv; split; auto; lia.
  - apply Z.leb_le in H0. destruct Hv; split; auto; lia.
  - apply andb_prop in H0 as (H1 & H2). apply Z.leb_le in H1. destruct Hv as (Hv1 & Hv2). split; [lia|].
    eapply Forall_impl; [|exact Hv2]. intros a Ha. eapply IHt; eauto.
  - apply andb_prop in H0 as (H1 & H2). eapply IHt1; eauto.
  - apply andb_prop in H0 as (H1 & H2). eapply IHt2; eauto.
  - change (widens_fields fs fs0 = true) in H0. revert fs0 fs1 H0 Hv. induction H as [|[k t] fs Ht H IH]; intros [|[k' t'] fs'] [|[k'' v] vs] H0 Hv; cbn in H0, Hv; try discriminate; try contradiction; auto.
    apply andb_prop in H0 as (H1 & H2). apply andb_prop in H1 as (H1 & H3). apply String.eqb_eq in H1. destruct Hv as (-> & Hv1 & Hv2).
    cbn. split; [congruence|]. split; [eapply Ht; eauto|]. apply IH; auto.
Qed.

Lemma widens_rep m P t : forall t' v ws, widens t t' = true -> rep m P t v ws -> rep m P t' v ws.
Proof.
  induction t using ty_ind'; intros [] v ws H0 Hv; cbn in H0; try discriminate; destruct v; cbn [rep] in *; try contradiction; auto.
  - apply Zs_eqb_eq in H0. subst. exact Hv.
  - apply andb_prop in H0 as (H1 & H2). rewrite (widens_wasm _ _ H2).
    destruct Hv as (o & V1 & V2 & V3 & V4 & V5 & V6). exists o. split; auto. split; auto. split; auto. split; auto. split; auto.
    revert V6. generalize o. clear -IHt H2. induction vs as [|v vs IH]; intros a Ha; auto.
    destruct Ha as ((ws' & W1 & W2) & Ha). split; [|apply IH; exact Ha]. exists ws'. split; auto.
  - rewrite (widens_wasm _ _ H0). exact Hv.
  - destruct Hv as (ws' & -> & Hv). exists ws'. split; auto.
  - apply andb_prop in H0 as (H1 & H2). rewrite (widens_wasm _ _ H2). destruct Hv as (w1 & w2 & -> & W1 & W2). exists w1, w2. split; auto.
  - apply andb_prop in H0 as (H1 & H2). rewrite (widens_wasm _ _ H1). destruct Hv as (w1 & w2 & -> & W1 & W2). exists w1, w2. split; auto.
  - change (widens_fields fs fs0 = true) in H0. revert fs0 fs1 ws H0 Hv. induction H as [|[k t] fs Ht H IH]; intros [|[k' t'] fs'] [|[k'' v] vs] ws H0 Hv; cbn in H0, Hv; try discriminate; try contradiction; auto.
    apply andb_prop in H0 as (H1 & H2). apply andb_prop in H1 as (H1 & H3). apply String.eqb_eq in H1. destruct Hv as (w1 & w2 & -> & -> & Hv1 & Hv2).
    exists w1, w2. split; [congruence|]. split; [reflexivity|]. split; [eapply Ht; eauto|]. apply IH; auto.
Qed.

(** ** Well-formed types *)
Lemma nodupb_ok ks : nodupb ks = true -> NoDup ks.
Proof.
  induction ks as [|k ks IH]; cbn; intros H; [constructor|]. apply andb_prop in H as (H1 & H2). constructor; auto.
  intros Hin. apply negb_true_iff in H1. rewrite <- not_true_iff_false in H1. apply H1. apply existsb_exists. exists k. split; auto. apply String.eqb_refl.
Qed.
Lemma ty_okb_ok t : ty_okb t = true -> ty_ok t.
Proof.
  induction t using ty_ind'; cbn [ty_okb ty_ok]; intros H0; auto.
  - apply andb_prop in H0 as (H1 & H2). apply Z.leb_le in H1, H2. lia.
  - apply andb_prop in H0 as (H1 & H2). apply Z.leb_le in H1, H2. lia.
  - apply andb_prop in H0 as (H1 & H2). apply Z.leb_le in H1, H2. lia.
  - apply andb_prop in H0 as (H1 & H3). apply andb_prop in H1 as (H1 & H2). apply Z.leb_le in H1, H2. split; [lia|auto].
  - apply andb_prop in H0 as (H1 & H2). auto.
  - apply andb_prop in H0 as (H1 & H3). apply andb_prop in H1 as (H1 & H2). split; [destruct fs; discriminate|]. split; [apply nodupb_ok; auto|].
    clear H1 H2. induction H as [|[k t] fs Ht H IH]; auto. cbn [forallb snd] in H3. apply andb_prop in H3 as (H3 & H4). split; [exact (Ht H3)|exact (IH H4)].
Qed.

(** ** Equality of values *)
Definition veqbs : list value -> list value -> bool :=
  fix go x y {struct x} := match x, y with [], [] => true | a :: x, b :: y => veqb a b && go x y | _, _ => false end.
Definition veqb_fields : list (string * value) -> list (string * value) -> bool :=
  fix go x y {struct x} :=
    match x, y with
    | [], [] => true
    | (k, a) :: x, (k', b) :: y => String.eqb k k' && veqb a b && go x y
    | _, _ => false
    end.
Lemma Zs_eqb_refl x : list_eqb Z.eqb x x = true.
Proof. induction x; cbn; auto. rewrite Z.eqb_refl; auto. Qed.
Lemma prin_eqb_spec p q : prin_eqb p q = true <-> p = q.
Proof.
  split.
  - destruct p, q; cbn; try discriminate; intros H.
    + apply andb_prop in H as (H1 & H2). apply Z.eqb_eq in H1. apply Zs_eqb_eq in H2. congruence.
    + apply andb_prop in H as (H1 & H3). apply andb_prop in H1 as (H1 & H2). apply Z.eqb_eq in H1. apply Zs_eqb_eq in H2, H3. congruence.
  - intros <-. destruct p; cbn; rewrite Z.eqb_refl, !Zs_eqb_refl; reflexivity.
Qed.

Section ValueInd.
  Variable P : value -> Prop.
  Hypothesis H_int : forall z, P (CInt z). Hypothesis H_uint : forall z, P (CUInt z).
  Hypothesis H_bool : forall b, P (CBool b). Hypothesis H_prin : forall p, P (CPrin p).
  Hypothesis H_call : forall p i, P (CCallable p i).
  Hypothesis H_buff : forall l, P (CBuff l). Hypothesis H_ascii : forall l, P (CAscii l). Hypothesis H_utf8 : forall l, P (CUtf8 l).
  Hypothesis H_list : forall l, Forall P l -> P (CList l).
  Hypothesis H_none : P CNone. Hypothesis H_some : forall v, P v -> P (CSome v).
  Hypothesis H_ok : forall v, P v -> P (COk v). Hypothesis H_err : forall v, P v -> P (CErr v).
  Hypothesis H_tuple : forall l, Forall (fun f => P (snd f)) l -> P (CTuple l).
  Fixpoint value_ind' (v : value) : P v :=
    match v with
    | CInt z => H_int z | CUInt z => H_uint z | CBool b => H_bool b | CPrin p => H_prin p | CCallable p i => H_call p i
    | CBuff l => H_buff l | CAscii l => H_ascii l | CUtf8 l => H_utf8 l
    | CList l => H_list l ((fix go l : Forall P l := match l with [] => Forall_nil _ | v :: l => Forall_cons v (value_ind' v) (go l) end) l)
    | CNone => H_none | CSome v => H_some v (value_ind' v) | COk v => H_ok v (value_ind' v) | CErr v => H_err v (value_ind' v)
    | CTuple l => H_tuple l ((fix go l : Forall (fun f => P (snd f)) l :=
        match l with [] => Forall_nil _ | (k, v) :: l => Forall_cons (k, v) (value_ind' v) (go l) end) l)
    end.
End ValueInd.

Lemma veqb_spec a : forall b, veqb a b = true <-> a = b.
Proof.
  induction a using value_ind'; intros []; cbn [veqb]; try (split; discriminate); try (split; congruence).
  all: try (rewrite Z.eqb_eq; split; congruence).
  - split; [intros H0; apply eqb_prop in H0; congruence|]. injection 1 as <-. apply Bool.eqb_true_iff. reflexivity.
  - rewrite prin_eqb_spec. split; congruence.
  - split.
    + intros H0. apply andb_prop in H0 as (H1 & H2). apply prin_eqb_spec in H1. apply Zs_eqb_eq in H2. congruence.
    + injection 1 as <- <-. apply andb_true_intro. split; [apply prin_eqb_spec; auto|apply Zs_eqb_refl].
  - split; [intros H0; apply Zs_eqb_eq in H0; congruence|]. injection 1 as <-. apply Zs_eqb_refl.
  - split; [intros H0; apply Zs_eqb_eq in H0; congruence|]. injection 1 as <-. apply Zs_eqb_refl.
  - split; [intros H0; apply Zs_eqb_eq in H0; congruence|]. injection 1 as <-. apply Zs_eqb_refl.
  - change (veqbs l vs = true <-> CList l = CList vs). assert (HX : veqbs l vs = true <-> l = vs).
    { revert vs. induction H as [|a l Ha H IH]; intros [|b y]; cbn; try (split; discriminate); [split; auto|].
      rewrite andb_true_iff, Ha, IH. split; [intros (-> & ->); auto|]. injection 1 as <- <-; auto. }
    rewrite HX. split; congruence.
  - rewrite IHa. split; congruence.
  - rewrite IHa. split; congruence.
  - rewrite IHa. split; congruence.
  - change (veqb_fields l fs = true <-> CTuple l = CTuple fs). assert (HX : veqb_fields l fs = true <-> l = fs).
    { revert fs. induction H as [|[k a] l Ha H IH]; intros [|[k' b] y]; cbn; try (split; discriminate); [split; auto|].
      rewrite !andb_true_iff, Ha, IH, String.eqb_eq. cbn [snd]. split; [intros ((-> & ->) & ->); auto|]. injection 1 as <- <- <-; auto. }
    rewrite HX. split; congruence.
Qed.

Lemma widens_refl t : widens t t = true.
Proof.
  induction t using ty_ind'; cbn [widens]; rewrite ?Z.leb_refl, ?Zs_eqb_refl; auto.
  - rewrite IHt1, IHt2. reflexivity.
  - change (widens_fields fs fs = true). induction H as [|[k t] fs Ht H IH]; [reflexivity|]. cbn [widens_fields]. rewrite String.eqb_refl. cbn [snd] in Ht.
    rewrite Ht, IH. reflexivity.
Qed.
