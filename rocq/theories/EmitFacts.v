(** * The local-variable allocator, and rules for emitted code (proof support) *)
From Coq Require Import ZArith String List Bool Lia.
Import ListNotations.
From Verif Require Import Wasm Std StdEnv WasmLogic WasmTac Clar Emit CallProofs.
Open Scope Z_scope.

(** ** Allocation *)
Definition llen (l : lst) : nat := length (l_tys l).
Definition pool (l : lst) : list nat := l_p32 l ++ l_p64 l.
(** locals that emitted code must preserve *)
Definition live (l : lst) (i : nat) : Prop := (i < llen l)%nat /\ ~ In i (pool l).
Definition lwf (l : lst) : Prop := NoDup (pool l) /\ Forall (fun i => (i < llen l)%nat) (pool l).
(** [l'] comes after [l] *)
Definition lext (l l' : lst) : Prop := lwf l' /\ (llen l <= llen l')%nat /\ forall i, live l i -> live l' i.

Lemma lext_refl l : lwf l -> lext l l.
Proof. intros H. split; [exact H|]. split; [lia|auto]. Qed.
Lemma lext_trans a b c : lext a b -> lext b c -> lext a c.
Proof. intros (H1 & H2 & H3) (H4 & H5 & H6). split; [exact H4|]. split; [lia|auto]. Qed.
Lemma lext_wf l l' : lext l l' -> lwf l'.
Proof. intros H; apply H. Qed.
Lemma lext_live l l' i : lext l l' -> live l i -> live l' i.
Proof. intros (_ & _ & H). auto. Qed.
Lemma lext_len l l' : lext l l' -> (llen l <= llen l')%nat.
Proof. intros H; apply H. Qed.

Lemma llen_add t l i l' : add_local t l = (i, l') -> i = llen l /\ llen l' = S (llen l) /\ pool l' = pool l.
Proof. unfold add_local. intros H; injection H as <- <-. unfold llen, pool; cbn. rewrite app_length; cbn. repeat split. lia. Qed.

Lemma add_ok t l i l' : add_local t l = (i, l') -> lwf l -> lext l l' /\ live l' i /\ ~ live l i.
Proof.
  intros H (Hn & Hf). destruct (llen_add _ _ _ _ H) as (-> & HL & HP). repeat split.
  - rewrite HP; auto.
  - rewrite HP. eapply Forall_impl; [|exact Hf]. cbn; intros; lia.
  - lia.
  - destruct H0. lia.
  - destruct H0. rewrite HP; auto.
  - lia.
  - rewrite HP. intros Hin. rewrite Forall_forall in Hf. specialize (Hf _ Hin). cbn in Hf. lia.
  - intros (Hlt & _). lia.
Qed.

Lemma in_mid {A} (x y : A) a b : In x (a ++ y :: b) <-> x = y \/ In x (a ++ b).
Proof. rewrite !in_app_iff. cbn. intuition congruence. Qed.

(** borrowing: the local is not live before, it is live after *)
Lemma borrow_ok t l i l' : borrow t l = (i, l') -> lwf l -> lext l l' /\ live l' i /\ ~ live l i.
Proof.
  intros H Hw.
  assert (HX : add_local t l = (i, l') \/
    (In i (pool l) /\ l_tys l' = l_tys l /\ NoDup (pool l') /\ (forall x, In x (pool l) <-> x = i \/ In x (pool l')) /\ ~ In i (pool l'))).
  { destruct Hw as (Hn & Hf). unfold borrow in H. destruct t.
    - destruct (l_p32 l) as [|j r] eqn:Hp; [left; exact H|right]. injection H as <- <-. unfold pool in *. rewrite Hp in *. cbn in *.
      inversion Hn; subst. repeat split; auto; intuition.
    - destruct (l_p64 l) as [|j r] eqn:Hp; [left; exact H|right]. injection H as <- <-. unfold pool in *. rewrite Hp in *. cbn in *.
      apply NoDup_remove in Hn. destruct Hn as (Hn1 & Hn2).
      split; [apply in_mid; auto|]. split; [reflexivity|]. split; [exact Hn1|]. split; [intros x; apply in_mid|exact Hn2].
    - destruct (l_p32 l) as [|j r] eqn:Hp; [left; exact H|right]. injection H as <- <-. unfold pool in *. rewrite Hp in *. cbn in *.
      inversion Hn; subst. repeat split; auto; intuition. }
  destruct HX as [HX|(Hi & Ht & Hnd & Hiff & Hni)]; [eapply add_ok; eauto|].
  destruct Hw as (Hn & Hf). rewrite Forall_forall in Hf.
  assert (HL : llen l' = llen l) by (unfold llen; rewrite Ht; reflexivity).
  repeat split; auto.
  - apply Forall_forall. intros x Hx. rewrite HL. apply Hf. apply Hiff; auto.
  - lia.
  - destruct H0; lia.
  - destruct H0 as (_ & H0). intros Hin. apply H0. apply Hiff; auto.
  - rewrite HL. apply Hf; auto.
  - intros (_ & Hx). auto.
Qed.

Lemma pool_release t i l x : In x (pool (release t i l)) <-> x = i \/ In x (pool l).
Proof. unfold pool, release. destruct t; cbn; rewrite ?in_mid; intuition. Qed.

Lemma release_wf t i l : lwf l -> live l i -> lwf (release t i l).
Proof.
  intros (Hn & Hf) (Hl & Hi). assert (HL : llen (release t i l) = llen l) by (destruct t; reflexivity). split.
  - unfold pool, release in *. destruct t; cbn; try (constructor; auto).
    apply NoDup_Add with (a := i) (l := l_p32 l ++ l_p64 l); [|split; auto].
    apply Add_app.
  - apply Forall_forall. intros x Hx. apply pool_release in Hx. rewrite HL. destruct Hx as [->|Hx]; auto.
    rewrite Forall_forall in Hf. apply Hf; auto.
Qed.

Lemma release_live t i l x : live (release t i l) x <-> live l x /\ x <> i.
Proof.
  unfold live. assert (HL : llen (release t i l) = llen l) by (destruct t; reflexivity). rewrite HL, pool_release. intuition.
Qed.

(** giving back a local that was not live at the start *)
Lemma release_ext t i l l' : lext l l' -> live l' i -> ~ live l i -> lext l (release t i l').
Proof.
  intros (Hw & Hl & Hx) Hi Hn. split; [apply release_wf; auto|]. split.
  - destruct t; exact Hl.
  - intros x HX. apply release_live. split; auto. congruence.
Qed.

Lemma add_locals_ok ts : forall l is l', add_locals ts l = (is, l') -> lwf l ->
  lext l l' /\ Forall (live l') is /\ Forall (fun i => ~ live l i) is /\ NoDup is /\ length is = length ts /\
  Forall (fun i => (llen l <= i)%nat) is.
Proof.
  induction ts as [|t ts IH]; intros l is l' H Hw; cbn in H.
  - injection H as <- <-. split; [apply lext_refl; auto|]. split; [constructor|]. split; [constructor|]. split; [constructor|]. split; [reflexivity|constructor].
  - destruct (add_locals ts _) as [js l2] eqn:E2. injection H as <- <-.
    set (l1 := mkl (l_tys l ++ [t]) (l_p32 l) (l_p64 l)) in *.
    assert (E1 : add_local t l = (length (l_tys l), l1)) by reflexivity.
    destruct (add_ok _ _ _ _ E1 Hw) as (A1 & A2 & A3). destruct (IH _ _ _ E2 (lext_wf _ _ A1)) as (B1 & B2 & B3 & B4 & B5 & B6).
    split; [eapply lext_trans; eauto|]. split; [constructor; auto; eapply lext_live; eauto|]. split.
    + constructor; auto. eapply Forall_impl; [|exact B3]. cbn. intros a Ha Hb. apply Ha. eapply lext_live; eauto.
    + split; [|split; [cbn; lia|]].
      * constructor; auto. intros Hin. rewrite Forall_forall in B6. specialize (B6 _ Hin). cbn in B6.
        unfold llen, l1 in B6. cbn in B6. rewrite app_length in B6. cbn in B6. lia.
      * constructor; [unfold llen; lia|]. eapply Forall_impl; [|exact B6]. intros a Ha. cbv beta in Ha |- *.
        apply lext_len in A1. lia.
Qed.

(** ** Emitted code preserves the live locals *)
Definition lkeep (l : lst) (ls ls' : list val) : Prop :=
  length ls' = length ls /\ forall i, live l i -> nth_error ls' i = nth_error ls i.

Lemma lkeep_refl l ls : lkeep l ls ls.
Proof. split; auto. Qed.
Lemma lkeep_trans l l1 a b c : lext l l1 -> lkeep l a b -> lkeep l1 b c -> lkeep l a c.
Proof. intros (_ & _ & HX) (H1 & H2) (H3 & H4). split; [congruence|]. intros i Hi. rewrite H4, H2; auto. Qed.
Lemma lkeep_trans0 l a b c : lkeep l a b -> lkeep l b c -> lkeep l a c.
Proof. intros (H1 & H2) (H3 & H4). split; [congruence|]. intros i Hi. rewrite H4, H2; auto. Qed.
Lemma lkeep_weaken l l1 a b : lext l l1 -> lkeep l1 a b -> lkeep l a b.
Proof. intros (_ & _ & HX) (H1 & H2). split; auto. Qed.
Lemma lkeep_lset l ls i v : ~ live l i -> lkeep l ls (lset ls i v).
Proof. intros Hn. split; [apply lset_len|]. intros j Hj. apply lset_other. congruence. Qed.
Lemma lkeep_len l a b : lkeep l a b -> length b = length a.
Proof. intros H; apply H. Qed.
Lemma lkeep_get l a b i : lkeep l a b -> live l i -> nth_error b i = nth_error a i.
Proof. intros (_ & H). auto. Qed.
Lemma lkeep_setl l ls is vs : Forall (fun i => ~ live l i) is -> lkeep l ls (setl ls is vs).
Proof.
  intros Hn. split; [apply setl_len|]. intros j Hj. apply setl_other. intros Hin.
  rewrite Forall_forall in Hn. exact (Hn _ Hin Hj).
Qed.

(** values bound to locals *)
Definition lvals (ls : list val) (is : list nat) (ws : list val) : Prop := Forall2 (fun i w => nth_error ls i = Some w) is ws.
Lemma lvals_keep l a b is ws : lkeep l a b -> Forall (live l) is -> lvals a is ws -> lvals b is ws.
Proof.
  intros Hk Hl H. unfold lvals in *. induction H as [|i w is ws Hi H IH]; constructor; inversion Hl; subst; auto.
  rewrite (lkeep_get _ _ _ _ Hk); auto.
Qed.
Lemma lvals_app ls is1 is2 ws1 ws2 : length is1 = length ws1 -> lvals ls (is1 ++ is2) (ws1 ++ ws2) <-> lvals ls is1 ws1 /\ lvals ls is2 ws2.
Proof.
  intros HL. split.
  - intros H. unfold lvals in *. revert ws1 HL H. induction is1 as [|i is1 IH]; intros [|w ws1] HL H; try discriminate; cbn in *; auto.
    inversion H; subst. destruct (IH ws1 ltac:(lia) H5). split; auto.
  - intros (H1 & H2). apply Forall2_app; auto.
Qed.

(** ** Rules *)
Section Rules.
Context {HS : Type} (E : env HS).
Notation wp := (wp E).

Lemma wp_lget i v is ls k (st : store HS) Q : nth_error ls i = Some v -> wp is (mkcfg ls (v :: k) st) Q -> wp (LGet i :: is) (mkcfg ls k st) Q.
Proof. intros H1 H2. eapply wp_step1; [reflexivity| |exact H2]. cbn [step clocals]. rewrite H1. reflexivity. Qed.
Lemma wp_lset i v is ls k (st : store HS) Q : wp is (mkcfg (lset ls i v) k st) Q -> wp (LSet i :: is) (mkcfg ls (v :: k) st) Q.
Proof. intros H2. eapply wp_step1; [reflexivity|reflexivity|exact H2]. Qed.
Lemma wp_ltee i v is ls k (st : store HS) Q : wp is (mkcfg (lset ls i v) (v :: k) st) Q -> wp (LTee i :: is) (mkcfg ls (v :: k) st) Q.
Proof. intros H2. eapply wp_step1; [reflexivity|reflexivity|exact H2]. Qed.
Lemma wp_drop v is ls k (st : store HS) Q : wp is (mkcfg ls k st) Q -> wp (Drop :: is) (mkcfg ls (v :: k) st) Q.
Proof. intros H2. eapply wp_step1; [reflexivity|reflexivity|exact H2]. Qed.
Lemma wp_const v is ls k (st : store HS) Q : wp is (mkcfg ls (v :: k) st) Q -> wp (Const v :: is) (mkcfg ls k st) Q.
Proof. intros H2. eapply wp_step1; [reflexivity|reflexivity|exact H2]. Qed.
Lemma wp_eqz32 a is ls k (st : store HS) Q : wp is (mkcfg ls (VI32 (b2z (a =? 0)) :: k) st) Q -> wp (Eqz32 :: is) (mkcfg ls (VI32 a :: k) st) Q.
Proof. intros H2. eapply wp_step1; [reflexivity|reflexivity|exact H2]. Qed.
Lemma wp_r32 o a b is ls k (st : store HS) Q : wp is (mkcfg ls (VI32 (b2z (irel sgn32 o a b)) :: k) st) Q -> wp (R32 o :: is) (mkcfg ls (VI32 b :: VI32 a :: k) st) Q.
Proof. intros H2. eapply wp_step1; [reflexivity|reflexivity|exact H2]. Qed.
Lemma wp_r64 o a b is ls k (st : store HS) Q : wp is (mkcfg ls (VI32 (b2z (irel sgn64 o a b)) :: k) st) Q -> wp (R64 o :: is) (mkcfg ls (VI64 b :: VI64 a :: k) st) Q.
Proof. intros H2. eapply wp_step1; [reflexivity|reflexivity|exact H2]. Qed.
Lemma wp_b32 o a b r is ls k (st : store HS) Q : ibin 32 m32 sgn32 o a b = Some r -> wp is (mkcfg ls (VI32 r :: k) st) Q -> wp (B32 o :: is) (mkcfg ls (VI32 b :: VI32 a :: k) st) Q.
Proof. intros H1 H2. eapply wp_step1; [reflexivity| |exact H2]. cbn [step cstack]. rewrite H1. reflexivity. Qed.

Lemma wp_lgets ns vs is ls k (st : store HS) Q : lvals ls ns vs ->
  wp is (mkcfg ls (rev vs ++ k) st) Q -> wp (push_locals ns ++ is) (mkcfg ls k st) Q.
Proof.
  intros H. revert k. induction H as [|n v ns vs Hn H IH]; intros k HW; [exact HW|].
  cbn [push_locals map app]. eapply wp_lget; [exact Hn|]. apply IH. cbn [rev] in HW. rewrite <- app_assoc in HW. exact HW.
Qed.

Lemma wp_lsets ns : forall vs is ls k (st : store HS) Q, length vs = length ns ->
  wp is (mkcfg (setl ls (rev ns) vs) k st) Q -> wp (map LSet ns ++ is) (mkcfg ls (rev vs ++ k) st) Q.
Proof.
  induction ns as [|n ns IH]; intros vs is ls k st Q HL HW.
  - destruct vs; [exact HW|discriminate].
  - destruct vs as [|v vs] using rev_ind; [discriminate|]. clear IHvs. rewrite app_length in HL; cbn in HL.
    rewrite rev_app_distr. cbn [rev app map]. apply wp_lset. apply IH; [lia|].
    cbn [rev] in HW. unfold setl in *. 
    assert (HC : combine (rev ns ++ [n]) (vs ++ [v]) = combine (rev ns) vs ++ [(n, v)]).
    { assert (HL' : length (rev ns) = length vs) by (rewrite rev_length; lia). clear -HL'. revert vs HL'.
      induction (rev ns); intros [|v' vs] H; try discriminate; cbn; auto. f_equal. apply IHl. cbn in H; lia. }
    rewrite HC, fold_right_app in HW. exact HW.
Qed.

(** [save_to_locals]: the value on top of the stack is bound to fresh locals *)
Lemma save_ok t l is c l' : save_to_locals t l = (is, c, l') -> lwf l ->
  lext l l' /\ Forall (live l') is /\ length is = length (clar2wasm_ty t) /\
  forall js ls k (st : store HS) ws Q, length ws = length (clar2wasm_ty t) -> (llen l' <= length ls)%nat ->
    (forall ls', lkeep l ls ls' -> lvals ls' is ws -> wp js (mkcfg ls' k st) Q) ->
    wp (c ++ js) (mkcfg ls (rev ws ++ k) st) Q.
Proof.
  unfold save_to_locals. destruct (add_locals (rev (clar2wasm_ty t)) l) as [ns l1] eqn:EA. intros H Hw. injection H as <- <- <-.
  destruct (add_locals_ok _ _ _ _ EA Hw) as (A1 & A2 & A3 & A4 & A5 & A6). rewrite rev_length in A5.
  split; auto. split; [apply Forall_rev; auto|]. split; [rewrite rev_length; auto|].
  intros js ls k st ws Q HL HN HW. apply wp_lsets; [lia|]. apply HW.
  - apply lkeep_setl. apply Forall_rev; auto.
  - apply setl_get; [apply NoDup_rev; auto| |rewrite rev_length; lia].
    apply Forall_rev. eapply Forall_impl; [|exact A2]. cbn. intros i (Hi & _). lia.
Qed.

Lemma wp_drops t is ls k (st : store HS) ws Q : length ws = length (clar2wasm_ty t) ->
  wp is (mkcfg ls k st) Q -> wp (drop_value t ++ is) (mkcfg ls (rev ws ++ k) st) Q.
Proof.
  unfold drop_value. intros HL HW. rewrite <- (rev_length ws) in HL. revert HL. generalize (rev ws). 
  induction (clar2wasm_ty t) as [|x xs IH]; intros [|w ws'] HL; try discriminate; [exact HW|].
  cbn [map app]. apply wp_drop. apply IH. cbn in HL; lia.
Qed.

Lemma wp_placeholders t is ls k (st : store HS) Q :
  wp is (mkcfg ls (rev (map zero_of (clar2wasm_ty t)) ++ k) st) Q -> wp (placeholders t ++ is) (mkcfg ls k st) Q.
Proof.
  unfold placeholders. revert k. induction (clar2wasm_ty t) as [|x xs IH]; intros k HW; [exact HW|].
  cbn [map app]. apply wp_const. apply IH. cbn [map rev] in HW. rewrite <- app_assoc in HW. exact HW.
Qed.
End Rules.
