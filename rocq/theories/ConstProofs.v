(** * The type of a value, and values written with one type and read with another *)
From Coq Require Import ZArith String List Bool Lia.
Import ListNotations.
From Verif Require Import Wasm StdEnv WasmTac Spec Mem MemFacts Bytes Clar Codec Rep RepFacts ReadProofs WriteProofs Const.
Open Scope string_scope.
Open Scope list_scope.
Open Scope Z_scope.

(** ** A type none of whose bounds exceeds another's *)
Fixpoint below (s t : ty) {struct s} : Prop :=
  match s, t with
  | TNo, _ => True
  | TInt, TInt | TUInt, TUInt | TBool, TBool | TPrin, TPrin => True
  | TBuff n, TBuff m | TAscii n, TAscii m | TUtf8 n, TUtf8 m => 0 <= n <= m
  | TList n a, TList m b => 0 <= n <= m /\ below a b
  | TOpt a, TOpt b => below a b
  | TResp a e, TResp b f => below a b /\ below e f
  | TTuple x, TTuple y =>
      (fix go (x y : list (string * ty)) {struct x} : Prop :=
        match x, y with
        | [], [] => True
        | (k, a) :: x, (j, b) :: y => k = j /\ below a b /\ go x y
        | _, _ => False
        end) x y
  | _, _ => False
  end.
Definition belows : list (string * ty) -> list (string * ty) -> Prop :=
  fix go x y {struct x} :=
    match x, y with
    | [], [] => True
    | (k, a) :: x, (j, b) :: y => k = j /\ below a b /\ go x y
    | _, _ => False
    end.
Definition lubs : list (string * ty) -> list (string * ty) -> list (string * ty) :=
  fix go x y {struct x} :=
    match x, y with
    | (k, a) :: x, (_, b) :: y => (k, lub a b) :: go x y
    | _, _ => x
    end.

Lemma below_no t : below TNo t. Proof. destruct t; exact I. Qed.
Lemma below_refl_no s : below s TNo -> s = TNo.
Proof. destruct s; cbn [below]; try contradiction; reflexivity. Qed.
Lemma lub_no b : lub b TNo = b.
Proof. destruct b; reflexivity. Qed.

Lemma below_refl t : forall a, below a t -> below a a.
Proof.
  induction t using ty_ind'; intros a Ha; destruct a; cbn [below] in Ha; try contradiction; cbn [below]; auto; try lia.
  - destruct Ha. split; [lia|]. eapply IHt; eauto.
  - destruct Ha. split; eauto.
  - revert fs0 Ha. induction H as [|[k t] fs Ht H IH]; intros [|[k' a] x]; cbn; try tauto. intros (-> & H1 & H2). split; [reflexivity|]. split; [eapply Ht; eauto|]. apply IH; exact H2.
Qed.
Lemma lub_below t : forall a b, below a t -> below b t -> below (lub a b) t /\ below a (lub a b) /\ below b (lub a b).
Proof.
  assert (N1 : forall t b, below b t -> below (lub TNo b) t /\ below TNo (lub TNo b) /\ below b (lub TNo b)).
  { intros u b Hb. assert (E : lub TNo b = b) by reflexivity. rewrite E. split; [exact Hb|]. split; [apply below_no|eapply below_refl; eauto]. }
  assert (N2 : forall t a, below a t -> below (lub a TNo) t /\ below a (lub a TNo) /\ below TNo (lub a TNo)).
  { intros u a Ha. rewrite lub_no. split; [exact Ha|]. split; [eapply below_refl; eauto|apply below_no]. }
  induction t using ty_ind'; intros a b Ha Hb;
    (destruct (match a with TNo => true | _ => false end) eqn:Ea; [destruct a; try discriminate Ea; apply N1, Hb|]);
    (destruct (match b with TNo => true | _ => false end) eqn:Eb; [destruct b; try discriminate Eb; apply N2, Ha|]);
    destruct a; try discriminate Ea; try contradiction Ha; destruct b; try discriminate Eb; try contradiction Hb; cbn [lub]; cbn [below] in *; try tauto; try lia.
  - destruct Ha as (Hn & Ha). destruct Hb as (Hm & Hb). destruct (IHt _ _ Ha Hb) as (H1 & H2 & H3). repeat split; try lia; assumption.
  - apply IHt; assumption.
  - destruct Ha as (A1 & A2), Hb as (B1 & B2). destruct (IHt1 _ _ A1 B1) as (H1 & H2 & H3). destruct (IHt2 _ _ A2 B2) as (H4 & H5 & H6). auto.
  - change (belows (lubs fs0 fs1) fs /\ belows fs0 (lubs fs0 fs1) /\ belows fs1 (lubs fs0 fs1)).
    change (belows fs0 fs) in Ha. change (belows fs1 fs) in Hb. clear Ea Eb. revert fs0 fs1 Ha Hb. induction H as [|[k t] fs Ht H IH]; intros [|[k1 a] x] [|[k2 b] y]; cbn [belows lubs]; try tauto.
    intros (-> & A1 & A2) (-> & B1 & B2). cbn [snd] in Ht. destruct (Ht _ _ A1 B1) as (H1 & H2 & H3). destruct (IH _ _ A2 B2) as (H4 & H5 & H6). repeat split; assumption.
Qed.

Lemma below_has_type t : forall s v, below s t -> has_type s v -> has_type t v.
Proof.
  induction t using ty_ind'; intros s v Hb Hv; destruct s; cbn [below] in Hb; try contradiction; try (destruct v; contradiction Hv); try exact Hv;
    destruct v; try contradiction Hv; cbn [has_type] in *; try (split; [lia|tauto]); eauto.
  - destruct Hb as (Hn & Hb). destruct Hv as (Hl & Hv). split; [lia|]. eapply Forall_impl; [|exact Hv]. intros. eauto.
  - destruct Hb. eauto.
  - destruct Hb. eauto.
  - change (belows fs0 fs) in Hb. change (fields_typed fs0 fs1) in Hv. change (fields_typed fs fs1). revert fs0 fs1 Hb Hv.
    induction H as [|[k t] fs Ht H IH]; intros [|[k1 a] x] [|[k2 v] y]; cbn [belows fields_typed]; try tauto.
    intros (-> & A1 & A2) (-> & B1 & B2). split; [reflexivity|]. split; [eapply Ht; eauto|eauto].
Qed.

Fixpoint value_ind2 (P : value -> Prop)
  (H0 : forall v, (match v with CList _ | CSome _ | COk _ | CErr _ | CTuple _ => False | _ => True end) -> P v)
  (HL : forall vs, Forall P vs -> P (CList vs)) (HS : forall v, P v -> P (CSome v)) (HO : forall v, P v -> P (COk v)) (HE : forall v, P v -> P (CErr v))
  (HT : forall fs, Forall (fun f => P (snd f)) fs -> P (CTuple fs)) (v : value) {struct v} : P v :=
  match v with
  | CList vs => HL vs ((fix go vs : Forall P vs := match vs with [] => Forall_nil _ | v :: vs => Forall_cons v (value_ind2 P H0 HL HS HO HE HT v) (go vs) end) vs)
  | CSome v => HS v (value_ind2 P H0 HL HS HO HE HT v)
  | COk v => HO v (value_ind2 P H0 HL HS HO HE HT v)
  | CErr v => HE v (value_ind2 P H0 HL HS HO HE HT v)
  | CTuple fs => HT fs ((fix go fs : Forall (fun f => P (snd f)) fs :=
      match fs with [] => Forall_nil _ | (k, v) :: fs => Forall_cons (k, v) (value_ind2 P H0 HL HS HO HE HT v) (go fs) end) fs)
  | v => H0 v I
  end.

(** the value's own type is below every type of the value, and is a type of the value *)
Lemma value_type_ok v : forall t, has_type t v -> no_trait t -> below (value_type v) t /\ has_type (value_type v) v.
Proof.
  induction v as [v H0|vs IH|v IH|v IH|v IH|fs IH] using value_ind2; intros t Ht Hn.
  - destruct v; try contradiction H0; destruct t; try contradiction Ht; cbn [value_type below has_type no_trait] in *; try contradiction; split; try exact I; try tauto; try lia; split; tauto||lia.
  - destruct t; try contradiction Ht. cbn [has_type no_trait] in Ht, Hn. destruct Ht as (Hl & Hf). cbn [value_type below has_type].
    assert (K : forall vs, Forall (fun v => forall t, has_type t v -> no_trait t -> below (value_type v) t /\ has_type (value_type v) v) vs -> Forall (has_type t) vs ->
      below (fold_right (fun v t => lub (value_type v) t) TNo vs) t /\ Forall (has_type (fold_right (fun v t => lub (value_type v) t) TNo vs)) vs).
    { clear - Hn. induction 1 as [|v vs Hv H IH]; intros Hf; cbn [fold_right]; [split; [apply below_no|constructor]|]. inversion Hf as [|? ? F1 F2]; subst.
      destruct (IH F2) as (I1 & I2). destruct (Hv _ F1 Hn) as (V1 & V2). destruct (lub_below _ _ _ V1 I1) as (L1 & L2 & L3).
      split; [exact L1|]. apply Forall_cons; [exact (below_has_type _ _ _ L2 V2)|]. eapply Forall_impl; [|exact I2]. intros a Ha. exact (below_has_type _ _ _ L3 Ha). }
    destruct (K vs IH Hf) as (K1 & K2). split; [split; [lia|exact K1]|split; [lia|exact K2]].
  - destruct t; try contradiction Ht. cbn [has_type no_trait] in Ht, Hn. cbn [value_type below has_type]. exact (IH _ Ht Hn).
  - destruct t; try contradiction Ht. cbn [has_type no_trait] in Ht, Hn. cbn [value_type below has_type]. destruct Hn as (Hn & _). destruct (IH _ Ht Hn). split; [split; [assumption|exact I]|assumption].
  - destruct t; try contradiction Ht. cbn [has_type no_trait] in Ht, Hn. cbn [value_type below has_type]. destruct Hn as (_ & Hn). destruct (IH _ Ht Hn). split; [split; [exact I|assumption]|assumption].
  - destruct t as [| | | | | | | | | | | |ts]; try contradiction Ht. change (fields_typed ts fs) in Ht. change (fields_no_trait ts) in Hn.
    cbn [value_type]. change (belows (map (fun f => (fst f, value_type (snd f))) fs) ts /\ fields_typed (map (fun f => (fst f, value_type (snd f))) fs) fs).
    revert ts Ht Hn. induction IH as [|[k v] fs Hv H IH]; intros [|[k' t] ts]; cbn [fields_typed fields_no_trait belows map fst snd]; try tauto.
    intros (-> & T1 & T2) (N1 & N2). cbn [snd] in Hv. destruct (Hv _ T1 N1) as (A & B). destruct (IH _ T2 N2) as (C & D). auto 8.
Qed.

Lemma below_ty_ok t : ty_ok t -> forall s, below s t -> ty_ok s.
Proof.
  induction t using ty_ind'; intros Hok s Hb; destruct s; cbn [below ty_ok] in *; try contradiction; try exact I; try lia.
  - destruct Hb, Hok. split; [lia|]. eauto.
  - eauto.
  - destruct Hb, Hok. eauto.
  - change (belows fs0 fs) in Hb. destruct Hok as (Hne & Hnd & Hok). change (fields_ok fs) in Hok. change (fs0 <> [] /\ NoDup (map fst fs0) /\ fields_ok fs0).
    assert (K : map fst fs0 = map fst fs /\ fields_ok fs0).
    { clear Hne Hnd. revert fs0 Hb Hok. induction H as [|[k t] fs Ht H IH]; intros [|[k1 a] x]; cbn [belows fields_ok map fst]; try tauto.
      intros (-> & B1 & B2) (O1 & O2). destruct (IH _ B2 O2) as (-> & H2). split; [reflexivity|]. split; [exact (Ht O1 _ B1)|exact H2]. }
    destruct K as (K1 & K2). rewrite K1. split; [|split; assumption]. intros ->. destruct fs; [congruence|discriminate K1].
Qed.
Lemma below_no_trait t : no_trait t -> forall s, below s t -> no_trait s.
Proof.
  induction t using ty_ind'; intros Hok s Hb; destruct s; cbn [below no_trait] in *; try contradiction; try exact I.
  - destruct Hb. eauto.
  - eauto.
  - destruct Hb, Hok. eauto.
  - change (belows fs0 fs) in Hb. change (fields_no_trait fs) in Hok. change (fields_no_trait fs0).
    revert fs0 Hb Hok. induction H as [|[k t] fs Ht H IH]; intros [|[k1 a] x]; cbn [belows fields_no_trait]; try tauto.
    intros (-> & B1 & B2) (O1 & O2). split; [exact (Ht O1 _ B1)|eapply IH; eauto].
Qed.
Lemma below_size t : ty_ok t -> forall s, below s t -> get_type_size s <= get_type_size t.
Proof.
  induction t using ty_ind'; intros Hok s Hb; pose proof (size_pos _ Hok) as Hp; destruct s; cbn [below] in Hb; try contradiction; cbn [get_type_size] in *; try lia; cbn [ty_ok] in Hok.
  - specialize (IHt Hok _ Hb). lia.
  - destruct Hb, Hok. specialize (IHt1 ltac:(assumption) _ ltac:(eassumption)). specialize (IHt2 ltac:(assumption) _ ltac:(eassumption)). lia.
  - destruct Hok as (_ & _ & Hok). change (fields_ok fs) in Hok. change (belows fs0 fs) in Hb. clear Hp.
    revert fs0 Hb Hok. induction H as [|[k t] fs Ht H IH]; intros [|[k1 a] x]; cbn [belows fields_ok fold_right snd]; try tauto; try lia.
    intros (-> & B1 & B2) (O1 & O2). cbn [snd] in Ht. specialize (Ht O1 _ B1). specialize (IH _ B2 O2). lia.
Qed.
Lemma below_payload t : ty_ok t -> forall s v, below s t -> has_type s v -> payload s v <= payload t v.
Proof.
  induction t using ty_ind'; intros Hok s v Hb Hv; destruct s; cbn [below] in Hb; try contradiction; destruct v; try contradiction Hv; cbn [payload]; try lia; cbn [has_type ty_ok] in *.
  - destruct Hb as (_ & Hb), Hok as (_ & Hok), Hv as (_ & Hv). pose proof (below_size t Hok _ Hb) as Hs.
    enough (fold_right (fun v n => payload s v + n) 0 vs <= fold_right (fun v n => payload t v + n) 0 vs) by nia.
    induction Hv as [|v vs V1 V2 IH]; cbn [fold_right]; [lia|]. specialize (IHt Hok _ _ Hb V1). lia.
  - apply IHt; assumption.
  - destruct Hb, Hok. apply IHt1; assumption.
  - destruct Hb, Hok. apply IHt2; assumption.
  - destruct Hok as (_ & _ & Hok). change (fields_ok fs) in Hok. change (belows fs0 fs) in Hb. change (fields_typed fs0 fs1) in Hv. change (payloads fs0 fs1 <= payloads fs fs1).
    revert fs0 fs1 Hb Hv Hok. induction H as [|[k t] fs Ht H IH]; intros [|[k1 a] x] [|[k2 v] y]; cbn [belows fields_typed fields_ok payloads]; try tauto; try lia.
    intros (-> & B1 & B2) (-> & V1 & V2) (O1 & O2). cbn [snd] in Ht. specialize (Ht O1 _ _ B1 V1). specialize (IH _ _ B2 V2 O2). lia.
Qed.

(** ** Reading with type [t] what was written with type [s] *)

(** every component that another one follows takes as many bytes in both *)
Fixpoint fits (s t : ty) {struct s} : Prop :=
  match s, t with
  | TList n a, TList m b => n = 0 \/ (get_type_size a = get_type_size b /\ fits a b)
  | TOpt a, TOpt b => fits a b
  | TResp a e, TResp b f => fits a b /\ fits e f /\ (e = TNo \/ get_type_size a = get_type_size b)
  | TTuple x, TTuple y =>
      (fix go (x y : list (string * ty)) {struct x} : Prop :=
        match x, y with
        | (_, a) :: x, (_, b) :: y => fits a b /\ (x = [] \/ get_type_size a = get_type_size b) /\ go x y
        | _, _ => True
        end) x y
  | _, _ => True
  end.
Definition fitss : list (string * ty) -> list (string * ty) -> Prop :=
  fix go x y {struct x} :=
    match x, y with
    | (_, a) :: x, (_, b) :: y => fits a b /\ (x = [] \/ get_type_size a = get_type_size b) /\ go x y
    | _, _ => True
    end.

Lemma holds_same m a x y : holds m a x -> holds m a y -> length x = length y -> x = y.
Proof. intros (_ & _ & H1) (_ & _ & H2) E. rewrite E in H1. congruence. Qed.
Lemma word_det t w w' : wtyped t w -> wtyped t w' -> word_bytes w = word_bytes w' -> w = w'.
Proof.
  destruct t, w, w'; cbn [wtyped]; try contradiction; unfold word_bytes; intros H1 H2 E; f_equal.
  - apply (le_bytes_inj 4); auto.
  - apply (le_bytes_inj 8); auto.
  - apply (le_bytes_inj 16); auto.
Qed.
Lemma word_at_det m a t w w' ws ws' : wtyped t w -> wtyped t w' -> words_at m a (w :: ws) -> words_at m a (w' :: ws') -> w = w'.
Proof.
  intros H1 H2 A B. apply words_at_cons in A, B. destruct A as (A & _), B as (B & _). eapply word_det; eauto. eapply holds_same; eauto.
  pose proof (wtyped_len _ _ H1). pose proof (wtyped_len _ _ H2). lia.
Qed.
Lemma words_det m ts : forall a ws ws', Forall2 wtyped ts ws -> Forall2 wtyped ts ws' -> words_at m a ws -> words_at m a ws' -> ws = ws'.
Proof.
  induction ts as [|t ts IH]; intros a ws ws' H1 H2 A B; inversion H1 as [|? w ? r W1 R1]; inversion H2 as [|? w' ? r' W2 R2]; subst; [reflexivity|].
  assert (w = w') by (eapply (word_at_det m a t); eauto). subst w'. f_equal. apply words_at_cons in A, B. destruct A as (_ & A), B as (_ & B). eapply IH; eauto.
Qed.

Lemma fits_rep m P s : forall t v off ws ws', below s t -> fits s t -> has_type s v -> rep m P s v ws -> words_at m off ws ->
  Forall2 wtyped (clar2wasm_ty t) ws' -> words_at m off ws' -> rep m P t v ws'.
Proof.
  induction s using ty_ind'; intros t' v off ws ws' Hb Hf Hv Hr Hw Hty Hw'; destruct t'; cbn [below] in Hb; try contradiction; try (destruct v; contradiction Hv);
    pose proof (rep_typed _ _ _ _ _ Hr) as Hty0;
    try (assert (ws = ws') by (eapply words_det; eassumption); subst ws'; destruct v; try contradiction Hv; exact Hr).
  - (* list *)
    assert (ws = ws') by (eapply words_det; eassumption). subst ws'. destruct v; try contradiction Hv. cbn [has_type fits rep] in *. destruct Hb as (Hn & Hb). destruct Hv as (Hl & Hv).
    destruct Hr as (o & -> & Ho & Hlt & Hbd & Hi & Hr). change (rep_elems m P s vs o) in Hr.
    destruct Hf as [->|(Hsz & Hf)].
    + destruct vs as [|v vs]; [|cbn [length] in Hl; lia]. exists o. cbn [length] in *. rewrite !Z.mul_0_l in *. repeat split; try lia; try exact I. intros x Hx. lia.
    + rewrite !words_size_ty in Hlt, Hbd, Hi. rewrite words_size_ty. exists o. rewrite words_size_ty, <- Hsz. split; [reflexivity|]. split; [exact Ho|]. split; [exact Hlt|]. split; [exact Hbd|]. split; [exact Hi|].
      assert (Hm : msize m <= m32) by lia. rewrite Hsz, <- (words_size_ty t'). change (rep_elems m P t' vs o).
      assert (Hfit : 0 <= o /\ o + Z.of_nat (length vs) * get_type_size s <= msize m) by lia. clear - IHs Hb Hf Hv Hr Hsz Hm Hfit. revert o Hr Hfit. induction Hv as [|v vs V1 V2 IH]; intros o Hr Hfit; [exact I|].
      cbn [rep_elems] in *. rewrite !words_size_ty in *. cbn [length] in Hfit. pose proof (size_nonneg s) as Hs0. destruct Hr as ((w & Hw & Hrw) & Hr).
      split; [|rewrite <- Hsz; apply IH; [exact Hr|lia]].
      destruct (words_exist m (clar2wasm_ty t') o) as (w' & T' & W'); [lia|rewrite words_size_ty, <- Hsz; lia|exact Hm|]. exists w'. split; [exact W'|].
      eapply IHs; eauto.
  - (* optional *)
    cbn [clar2wasm_ty] in Hty. inversion Hty as [|? w' ? r' W2 R2]; subst. destruct v; try contradiction Hv; cbn [rep has_type fits] in *; destruct Hr as (r & -> & Hr).
    + assert (E : VI32 0 = w') by (eapply (word_at_det m off T32); eauto; cbn; lia). subst w'. eauto.
    + assert (E : VI32 1 = w') by (eapply (word_at_det m off T32); eauto; cbn; lia). subst w'. exists r'. split; [reflexivity|].
      apply words_at_cons in Hw, Hw'. destruct Hw as (_ & Hw), Hw' as (_ & Hw'). eapply IHs; eauto.
  - (* response *)
    cbn [clar2wasm_ty] in Hty. inversion Hty as [|? w' ? r' W2 R2]; subst. apply Forall2_app_inv_l in R2. destruct R2 as (r1 & r2 & R1 & R2 & ->).
    destruct Hb as (Hb1 & Hb2). destruct v; try contradiction Hv; cbn [rep has_type fits] in *; destruct Hf as (F1 & F2 & F3); destruct Hr as (q1 & q2 & -> & Q1 & Q2).
    + assert (E : VI32 1 = w') by (eapply (word_at_det m off T32); eauto; cbn; lia). subst w'. exists r1, r2. split; [reflexivity|]. split; [|exact R2].
      apply words_at_cons in Hw, Hw'. destruct Hw as (_ & Hw), Hw' as (_ & Hw'). apply words_at_app in Hw, Hw'. destruct Hw as (Hw & _), Hw' as (Hw' & _). eapply IHs1; eauto.
    + assert (E : VI32 0 = w') by (eapply (word_at_det m off T32); eauto; cbn; lia). subst w'. exists r1, r2. split; [reflexivity|]. split; [exact R1|].
      destruct F3 as [->|F3]; [destruct v; contradiction Hv|].
      apply words_at_cons in Hw, Hw'. destruct Hw as (_ & Hw), Hw' as (_ & Hw'). apply words_at_app in Hw, Hw'. destruct Hw as (_ & Hw), Hw' as (_ & Hw').
      rewrite (words_bytes_len _ _ Q1), words_size_ty in Hw. rewrite (words_bytes_len _ _ R1), words_size_ty, <- F3 in Hw'.
      cbn [word_bytes] in Hw, Hw'. rewrite len_le_bytes in Hw, Hw'. eapply IHs2; eauto.
  - (* tuple *)
    destruct v; try contradiction Hv. rewrite rep_tuple in *. change (belows fs fs0) in Hb. change (fields_typed fs fs1) in Hv. change (fitss fs fs0) in Hf. cbn [clar2wasm_ty] in Hty. clear Hty0.
    revert fs0 fs1 off ws ws' Hb Hf Hv Hr Hw Hty Hw'. induction H as [|[k s] fs Hs H IH]; intros [|[k1 t] ts] [|[k2 v] vs] off ws ws'; cbn [belows fitss fields_typed rep_fields flat_map snd] in *; try tauto.
    { intros _ _ _ _ _ Hty _. inversion Hty. reflexivity. }
    intros (-> & B1 & B2) (F1 & F2 & F3) (-> & V1 & V2) (q1 & q2 & _ & -> & Q1 & Q2) Hw Hty Hw'.
    apply Forall2_app_inv_l in Hty. destruct Hty as (r1 & r2 & R1 & R2 & ->). exists r1, r2. split; [reflexivity|]. split; [reflexivity|].
    apply words_at_app in Hw, Hw'. destruct Hw as (Hw1 & Hw2), Hw' as (Hw'1 & Hw'2). split; [eapply Hs; eauto|].
    rewrite (rep_words_len _ _ _ _ _ Q1) in Hw2. rewrite (words_bytes_len _ _ R1), words_size_ty in Hw'2.
    destruct F2 as [->|F2]; [|rewrite <- F2 in Hw'2; eapply IH; eauto].
    destruct ts; [|contradiction B2]. destruct vs; [|contradiction V2]. inversion R2. reflexivity.
Qed.

(** ** Types without optionals and responses *)
Fixpoint solid (t : ty) : Prop :=
  match t with
  | TNo | TOpt _ | TResp _ _ => False
  | TList _ t => solid t
  | TTuple fs => (fix go (fs : list (string * ty)) : Prop := match fs with [] => True | (_, t) :: fs => solid t /\ go fs end) fs
  | _ => True
  end.
Definition solids : list (string * ty) -> Prop := fix go fs := match fs with [] => True | (_, t) :: fs => solid t /\ go fs end.
(** nothing missing but the element types of empty lists *)
Fixpoint full (s t : ty) {struct s} : Prop :=
  match s, t with
  | TInt, TInt | TUInt, TUInt | TBool, TBool | TPrin, TPrin | TTrait _, TTrait _ | TBuff _, TBuff _ | TAscii _, TAscii _ | TUtf8 _, TUtf8 _ => True
  | TList n a, TList _ b => 0 <= n /\ ((n = 0 /\ a = TNo) \/ full a b)
  | TTuple x, TTuple y =>
      (fix go (x y : list (string * ty)) {struct x} : Prop :=
        match x, y with
        | [], [] => True
        | (_, a) :: x, (_, b) :: y => full a b /\ go x y
        | _, _ => False
        end) x y
  | _, _ => False
  end.
Definition fulls : list (string * ty) -> list (string * ty) -> Prop :=
  fix go x y {struct x} :=
    match x, y with
    | [], [] => True
    | (_, a) :: x, (_, b) :: y => full a b /\ go x y
    | _, _ => False
    end.
Lemma full_fits t : forall s, full s t -> get_type_size s = get_type_size t /\ fits s t.
Proof.
  induction t using ty_ind'; intros s Hs; destruct s; cbn [full] in Hs; try contradiction; cbn [get_type_size fits]; try (split; [reflexivity|exact I]).
  - split; [reflexivity|]. destruct Hs as (_ & [(-> & _)|Hs]); [left; reflexivity|right; apply IHt, Hs].
  - change (fulls fs0 fs) in Hs. change (fsize fs0 = fsize fs /\ fitss fs0 fs). revert fs0 Hs. induction H as [|[k t] fs Ht H IH]; intros [|[k1 a] x]; cbn [fulls fitss fsize fold_right snd]; try tauto.
    intros (H1 & H2). cbn [snd] in Ht. destruct (Ht _ H1) as (A & B). destruct (IH _ H2) as (C & D). unfold fsize in C. split; [lia|]. split; [exact B|]. split; [right; exact A|exact D].
Qed.
Lemma lub_full t : forall a b, full a t -> full b t -> full (lub a b) t.
Proof.
  induction t using ty_ind'; intros a b Ha Hb; destruct a; cbn [full] in Ha; try contradiction; destruct b; cbn [full] in Hb; try contradiction; cbn [lub full]; try exact I.
  - destruct Ha as (Hn & Ha), Hb as (Hm & Hb). split; [lia|]. destruct Ha as [(-> & ->)|Ha].
    + destruct Hb as [(-> & ->)|Hb]; [left; split; [lia|reflexivity]|right; exact Hb].
    + destruct Hb as [(-> & ->)|Hb]; [right; rewrite lub_no; exact Ha|right; apply IHt; assumption].
  - change (fulls fs0 fs) in Ha. change (fulls fs1 fs) in Hb. change (fulls (lubs fs0 fs1) fs). revert fs0 fs1 Ha Hb. induction H as [|[k t] fs Ht H IH]; intros [|[k1 a] x] [|[k2 b] y]; cbn [fulls lubs]; try tauto.
    intros (A1 & A2) (B1 & B2). split; [apply Ht; assumption|apply IH; assumption].
Qed.
Lemma solid_full v : forall t, has_type t v -> no_trait t -> solid t -> full (value_type v) t.
Proof.
  induction v as [v H0|vs IH|v IH|v IH|v IH|fs IH] using value_ind2; intros t Ht Hn Hs.
  - destruct v; try contradiction H0; destruct t; try contradiction Ht; try contradiction Hs; exact I.
  - destruct t; try contradiction Ht. cbn [has_type no_trait solid value_type full] in *. destruct Ht as (_ & Hf). split; [lia|].
    destruct vs as [|v vs]; [left; split; reflexivity|]. right. revert v Hf IH. induction vs as [|w vs IHvs]; intros v Hf IH; inversion Hf as [|? ? F1 F2]; subst; inversion IH as [|? ? I1 I2]; subst.
    + cbn [fold_right]. rewrite lub_no. apply I1; assumption.
    + cbn [fold_right]. apply lub_full; [apply I1; assumption|]. apply (IHvs w F2 I2).
  - destruct t; try contradiction Ht; contradiction Hs.
  - destruct t; try contradiction Ht; contradiction Hs.
  - destruct t; try contradiction Ht; contradiction Hs.
  - destruct t as [| | | | | | | | | | | |ts]; try contradiction Ht. change (fields_typed ts fs) in Ht. change (fields_no_trait ts) in Hn. change (solids ts) in Hs.
    cbn [value_type]. change (fulls (map (fun f => (fst f, value_type (snd f))) fs) ts). revert ts Ht Hn Hs.
    induction IH as [|[k v] fs Hv H IH]; intros [|[k' t] ts]; cbn [fields_typed fields_no_trait solids fulls map fst snd]; try tauto.
    intros (-> & T1 & T2) (N1 & N2) (S1 & S2). cbn [snd] in Hv. split; [apply Hv; assumption|apply IH; assumption].
Qed.

(** constants whose type has optionals or responses at the outside only, as long as no error
    follows an absent ok value of another size *)
Lemma solid_fits t v : has_type t v -> no_trait t -> solid t -> fits (value_type v) t.
Proof. intros H1 H2 H3. apply full_fits, solid_full; assumption. Qed.
Lemma some_fits t v : fits (value_type v) t -> fits (value_type (CSome v)) (TOpt t).
Proof. intros H. exact H. Qed.
Lemma ok_fits t e v : fits (value_type v) t -> fits (value_type (COk v)) (TResp t e).
Proof. intros H. cbn [value_type fits]. split; [exact H|]. split; [exact I|left; reflexivity]. Qed.
Lemma err_fits t e v : fits (value_type v) e -> get_type_size t = 4 -> fits (value_type (CErr v)) (TResp t e).
Proof. intros H H0. cbn [value_type fits]. split; [exact I|]. split; [exact H|right; rewrite H0; reflexivity]. Qed.
