(** * What is read is determined by the input: no readable sequence continues another
    (proof support) *)
From Coq Require Import ZArith String List Bool Lia.
Import ListNotations.
From Verif Require Import Wasm StdEnv WasmTac Spec Mem Bytes SpecBytes SpecUtf8 Clar Rep RepFacts LangFacts SpecSer SpecSkip PropSer SpecDeser DeserProofs DeserTuple.
Open Scope Z_scope.

Lemma clarity_name_bytes n : clarity_name n -> zlen n < 256 /\ Forall byte n.
Proof.
  intros (H1 & H2). split; [unfold zlen; lia|].
  assert (L : forall c, is_clarity_char c = true -> byte c).
  { intros c Hc. unfold is_clarity_char in Hc. cbn [existsb] in Hc. unfold is_letter, is_digit in Hc. unfold byte. lia. }
  assert (L2 : forall c, is_letter c = true -> byte c) by (unfold is_letter, byte; intros c Hc; lia).
  destruct H2 as [(c & r & -> & Hc & Hr)|H2].
  - constructor; [auto|]. apply Forall_forall. intros x Hx. rewrite forallb_forall in Hr. auto.
  - cbn [In] in H2. repeat (destruct H2 as [<-|H2]; [repeat constructor; lia|]). destruct H2.
Qed.
Lemma wire_value v : wire v -> clarity_value v.
Proof.
  assert (P : forall p, wire_prin p -> prin_bytes_ok p).
  { intros [ve h|ve h n]; cbn [wire_prin prin_bytes_ok].
    - intros (H1 & H2 & H3). split; [unfold byte; lia|]. auto.
    - intros (H1 & H2 & H3 & H4). apply clarity_name_bytes in H4 as (H4 & H5). split; [unfold byte; lia|]. auto. }
  induction v using value_ind'; cbn [wire clarity_value]; try (intros; solve [auto]).
  - intros (H1 & H2). split; [exact H1|]. eapply Forall_impl; [|exact H2]. unfold clarity_ascii, byte. intros; lia.
  - intros (H1 & H2). split; [exact H1|]. clear H1. induction H as [|v vs Hv H IH]; [exact I|]. destruct H2 as (H2 & H3). split; [auto|apply IH; exact H3].
  - intros (_ & H1 & H2). split; [exact H1|]. clear H1. induction H as [|[k v] vs Hv H IH]; [exact I|]. destruct H2 as (H2 & H3 & H4). split; [apply clarity_name_bytes in H2; tauto|]. split; [auto|apply IH; exact H4].
Qed.

Definition unambiguous (t : ty) : Prop := forall v v' b b' r s, readable t v b -> readable t v' b' -> b ++ r = b' ++ s -> b = b' /\ r = s.
Lemma same_tail {A} (b b' r s : list A) : b ++ r = b' ++ s -> r = s -> b = b' /\ r = s.
Proof. intros H ->. apply app_inv_tail in H. auto. Qed.
Lemma item_same fs it it' r s : NoDup (map fst fs) -> Forall (fun f => unambiguous (snd f)) fs -> reads_item fs it -> reads_item fs it' ->
  item_bytes it ++ r = item_bytes it' ++ s -> it = it' /\ r = s.
Proof.
  intros Hn HF H1 H2 H. destruct it as [k b], it' as [k' b']. unfold item_bytes in H. cbn [fst snd app] in H. apply cons_split in H as (HL & H). rewrite <- !app_assoc in H.
  apply app_split in H as (-> & H); [|unfold zlen in HL; lia].
  destruct H1 as [(f & t & v & A1 & A2 & A3)|(A1 & A2)], H2 as [(f' & t' & v' & B1 & B2 & B3)|(B1 & B2)]; cbn [fst snd] in *.
  - rewrite A2 in B2. apply chars_inj in B2. subst f'. assert (t' = t) as ->.
    { apply In_nth_error in A1 as (i & A1), B1 as (j & B1). assert (i = j) as ->; [|congruence].
      eapply NoDup_nth_error; [exact Hn|rewrite map_length; apply nth_error_Some; congruence|]. rewrite !nth_error_map, A1, B1. reflexivity. }
    rewrite Forall_forall in HF. destruct (HF _ A1 _ _ _ _ _ _ A3 B3 H) as (-> & ->). auto.
  - exfalso. apply B1. apply in_map_iff. exists (f, t). auto.
  - exfalso. apply A1. apply in_map_iff. exists (f', t'). auto.
  - destruct A2 as (_ & v & A2 & _ & E1), B2 as (_ & v' & B2 & _ & E2). cbn [snd] in *. subst b b'. destruct (prefix_free v v' r s (wire_value _ A2) (wire_value _ B2) H) as (_ & ->). apply app_inv_tail in H. rewrite H. auto.
Qed.
Lemma items_same fs its : NoDup (map fst fs) -> Forall (fun f => unambiguous (snd f)) fs -> forall its' r s, length its = length its' ->
  (forall it, In it its -> reads_item fs it) -> (forall it, In it its' -> reads_item fs it) ->
  flat_map item_bytes its ++ r = flat_map item_bytes its' ++ s -> its = its' /\ r = s.
Proof.
  intros Hn HF. induction its as [|it its IH]; intros [|it' its'] r s HL H1 H2 H; try discriminate HL; [auto|]. cbn [flat_map] in H. rewrite <- !app_assoc in H.
  apply (item_same fs) in H as (-> & H); auto; [|apply H1; left; reflexivity|apply H2; left; reflexivity].
  destruct (IH its' r s) as (-> & ->); auto; [intros x Hx; apply H1; right; exact Hx|intros x Hx; apply H2; right; exact Hx].
Qed.
(** the items of a readable tuple *)
Lemma readable_items fs vs bs : readable (TTuple fs) (CTuple vs) bs -> exists its, bs = 12 :: u32_be (zlen its) ++ flat_map item_bytes its /\ zlen its < 2 ^ 32 /\
  (forall it, In it its -> reads_item fs it) /\ forall k, In k (map fst fs) -> count_occ zlist_dec (map fst its) (chars k) = 1%nat.
Proof.
  intros (its & Hbs & W4 & W5 & W6 & W7 & W8). change (readable_fields its fs vs) in W8. exists its. split; [exact Hbs|]. split; [exact W4|]. split; [|exact W6].
  intros it Hit. destruct (in_dec zlist_dec (fst it) (map (fun f => chars (fst f)) fs)) as [Hk|Hk].
  + left. apply in_map_iff in Hk as ((f & t) & Hk1 & Hk2). cbn [fst] in Hk1. assert (Hk3 := Hk2). apply In_nth_error in Hk2 as (i & Hi).
    destruct (fields_nth _ _ _ W8 W5 _ _ _ Hi) as (v & b & Y1 & Y2 & Y3). exists f, t, v. split; [exact Hk3|]. split; [congruence|].
    assert (b = snd it) as <-; [|exact Y3]. apply in_split in Hit as (past & rest & ->).
    apply (once past rest it); [rewrite <- Hk1; apply W6; change f with (fst (f, t)); apply in_map; exact Hk3|]. rewrite <- Hk1. exact Y2.
  + right. split; [exact Hk|]. destruct (W7 _ Hit) as [X|X]; [contradiction|exact X].
Qed.
Lemma list_same t : unambiguous t -> forall vs bss vs' bss' r s, Forall2 (readable t) vs bss -> Forall2 (readable t) vs' bss' -> length vs = length vs' ->
  concat bss ++ r = concat bss' ++ s -> r = s.
Proof.
  intros HU vs bss vs' bss' r s H. revert vs' bss' r s. induction H as [|v b vs bss Hv H IH]; intros vs' bss' r s H' HL HE.
  - destruct vs'; [|discriminate]. inversion H'; subst. exact HE.
  - inversion H' as [|v' b' vs2 bss2 Hv' H2]; subst; [discriminate|]. cbn [concat] in HE. rewrite <- !app_assoc in HE. destruct (HU _ _ _ _ _ _ Hv Hv' HE) as (_ & HE2). eapply IH; eauto.
Qed.
Lemma readable_same t : ty_ok t -> unambiguous t.
Proof.
  induction t using ty_ind'; intros Hok v v' b b' r s H1 H2 HE; try rename H into IHF.
  all: try (match type of H1 with readable ?T _ _ => destruct (base_readable T _ _ I Hok H1) as (-> & C1); destruct (base_readable T _ _ I Hok H2) as (-> & C2) end;
    apply same_tail; [exact HE|exact (proj2 (prefix_free _ _ _ _ C1 C2 HE))]).
  - exfalso. clear - H1. destruct v; exact H1.
  - apply same_tail; [exact HE|]. destruct v; try contradiction. destruct v'; try contradiction. cbn [readable] in H1, H2. destruct H1 as (L1 & bss & -> & F1), H2 as (L2 & bss' & -> & F2). destruct Hok as (Hn & Hok).
    cbn [app] in HE. apply cons_split in HE as (_ & HE). rewrite <- !app_assoc in HE. unfold max_value_size in Hn. apply counted_split in HE as (HL & HE); [|lia|lia]. eapply (list_same t (IHt Hok)); [exact F1|exact F2|exact HL|exact HE].
  - destruct v; try contradiction; destruct v'; try contradiction; cbn [readable] in H1, H2.
    + subst. apply same_tail; [exact HE|]. cbn [app] in HE. apply cons_split in HE as (_ & HE). exact HE.
    + subst b. destruct H2 as (x & -> & _). cbn [app] in HE. apply cons_split in HE as (HX & _). discriminate.
    + subst b'. destruct H1 as (x & -> & _). cbn [app] in HE. apply cons_split in HE as (HX & _). discriminate.
    + destruct H1 as (x & -> & X), H2 as (y & -> & Y). cbn [app] in HE. apply cons_split in HE as (_ & HE). destruct (IHt Hok _ _ _ _ _ _ X Y HE) as (-> & ->). auto.
  - destruct Hok as (Ho1 & Ho2). destruct v; try contradiction; destruct v'; try contradiction; cbn [readable] in H1, H2; destruct H1 as (x & -> & X), H2 as (y & -> & Y); cbn [app] in HE; apply cons_split in HE as (HX & HE); try discriminate HX.
    + destruct (IHt1 Ho1 _ _ _ _ _ _ X Y HE) as (-> & ->). auto.
    + destruct (IHt2 Ho2 _ _ _ _ _ _ X Y HE) as (-> & ->). auto.
  - apply same_tail; [exact HE|]. destruct v; try contradiction. destruct v'; try contradiction. rewrite ty_ok_tuple in Hok. destruct Hok as (_ & Hn & Hok).
    assert (HF : Forall (fun f => unambiguous (snd f)) fs). { clear - IHF Hok. induction IHF as [|[k t] fs Ht F IH]; constructor; destruct Hok; auto. }
    destruct (readable_items _ _ _ H1) as (its & -> & L1 & R1 & _). destruct (readable_items _ _ _ H2) as (its' & -> & L2 & R2 & _).
    cbn [app] in HE. apply cons_split in HE as (_ & HE). rewrite <- !app_assoc in HE. apply counted_split in HE as (HL & HE); auto. eapply items_same in HE as (_ & HE); eauto.
Qed.
(** an input cannot be both well formed and miskeyed *)
Lemma miskeyed_not t : ty_ok t -> forall v bs, miskeyed t bs -> ~ readable t v bs.
Proof.
  induction t using ty_ind'; intros Hok v bs HM HR; try contradiction; try rename H into IHF.
  - destruct HM as (b & -> & HM). destruct v; try contradiction; cbn [readable] in HR; [discriminate|]. destruct HR as (b' & HE & HR). apply cons_split in HE as (_ & <-). eapply IHt; eauto.
  - destruct Hok as (Ho1 & Ho2). destruct HM as (b & [(-> & HM)|(-> & HM)]); destruct v; try contradiction; cbn [readable] in HR; destruct HR as (b' & HE & HR); apply cons_split in HE as (HX & <-); try discriminate HX; [eapply IHt1|eapply IHt2]; eauto.
  - destruct HM as (its & -> & L1 & R1 & k & K1 & K2). destruct v; try contradiction. destruct (readable_items _ _ _ HR) as (its' & HE & L2 & R2 & K3). rewrite ty_ok_tuple in Hok. destruct Hok as (_ & Hn & Hok).
    assert (HF : Forall (fun f => unambiguous (snd f)) fs). { clear - Hok. induction fs as [|[k t] fs IH]; constructor; destruct Hok; auto. apply readable_same. auto. }
    apply cons_split in HE as (_ & HE). apply counted_split in HE as (HL & HE); auto.
    destruct (items_same fs its Hn HF its' [] [] HL R1 R2) as (-> & _); [rewrite !app_nil_r; exact HE|]. apply K2. apply K3. exact K1.
Qed.
