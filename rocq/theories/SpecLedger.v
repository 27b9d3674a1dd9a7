(** * What a token ledger is: independent of the host functions.

    A ledger changes only by events; each event is legal in the ledger it is
    applied to, and says exactly what changes. *)
From Coq Require Import ZArith String List Bool Lia.
Import ListNotations.
From Verif Require Import Clar Ledger.
Open Scope Z_scope.

Record ledger := mkledger {
  l_supply : name -> Z;
  l_bal : name -> prin -> Z;
  l_owner : name -> value -> option prin }.

Definition here {A} (dec : forall a b : A, {a = b} + {a <> b}) (a b : A) (z : Z) : Z :=
  if dec a b then z else 0.

(** how much the event adds to the supply of token [n] *)
Definition supply_change (e : event) (n : name) : Z :=
  match e with
  | EvFtMint n' _ a => here name_eq_dec n n' a
  | EvFtBurn n' _ a => - here name_eq_dec n n' a
  | _ => 0
  end.
(** how much the event adds to the balance of [p] *)
Definition balance_change (e : event) (n : name) (p : prin) : Z :=
  match e with
  | EvFtMint n' to a => here name_eq_dec n n' (here prin_eq_dec p to a)
  | EvFtBurn n' from a => - here name_eq_dec n n' (here prin_eq_dec p from a)
  | EvFtTransfer n' from to a =>
      here name_eq_dec n n' (here prin_eq_dec p to a - here prin_eq_dec p from a)
  | _ => 0
  end.
(** the owner of NFT [i] after the event *)
Definition owner_change (e : event) (n : name) (i : value) (old : option prin) : option prin :=
  match e with
  | EvNftMint n' i' to | EvNftTransfer n' i' _ to =>
      if name_eq_dec n n' then if value_eq_dec i i' then Some to else old else old
  | EvNftBurn n' i' _ =>
      if name_eq_dec n n' then if value_eq_dec i i' then None else old else old
  | _ => old
  end.

(** when an event may happen; [cap] gives the declared maximum supplies *)
Definition legal (cap : name -> option Z) (l : ledger) (e : event) : Prop :=
  match e with
  | EvFtMint n _ a =>
      0 < a /\ l_supply l n + a < 2 ^ 128 /\ forall c, cap n = Some c -> l_supply l n + a <= c
  | EvFtBurn n p a => 0 < a <= l_bal l n p
  | EvFtTransfer n p q a => p <> q /\ 0 < a <= l_bal l n p
  | EvNftMint n i _ => l_owner l n i = None
  | EvNftBurn n i p => l_owner l n i = Some p
  | EvNftTransfer n i p q => p <> q /\ l_owner l n i = Some p
  end.

Record applied (l : ledger) (e : event) (l' : ledger) : Prop := {
  ap_supply : forall n, l_supply l' n = l_supply l n + supply_change e n;
  ap_bal : forall n p, l_bal l' n p = l_bal l n p + balance_change e n p;
  ap_owner : forall n i, l_owner l' n i = owner_change e n i (l_owner l n i) }.

Record same_ledger (l l' : ledger) : Prop := {
  sl_supply : forall n, l_supply l' n = l_supply l n;
  sl_bal : forall n p, l_bal l' n p = l_bal l n p;
  sl_owner : forall n i, l_owner l' n i = l_owner l n i }.

(** the events [evs] (newest first) legally lead from [l] to [l'] *)
Inductive history (cap : name -> option Z) (l : ledger) : list event -> ledger -> Prop :=
| hist_nil l' : same_ledger l l' -> history cap l [] l'
| hist_cons e evs l1 l2 : history cap l evs l1 -> legal cap l1 e -> applied l1 e l2 -> history cap l (e :: evs) l2.

(** ** Conservation *)
Fixpoint total (hs : list prin) (f : prin -> Z) : Z :=
  match hs with [] => 0 | p :: hs => f p + total hs f end.

(** finitely many principals hold the token, nobody holds a negative amount, and
    the holdings add up to the supply *)
Definition conserved (l : ledger) : Prop := forall n,
  (forall p, 0 <= l_bal l n p) /\
  exists hs, NoDup hs /\ (forall p, l_bal l n p <> 0 -> In p hs) /\ l_supply l n = total hs (l_bal l n).

(** ** Facts about histories *)

Lemma total_ext hs f g : (forall p, In p hs -> f p = g p) -> total hs f = total hs g.
Proof. induction hs as [|p hs IH]; cbn; intro H; [reflexivity|]. rewrite (H p), IH; auto. Qed.

Lemma total_add hs f g : total hs (fun p => f p + g p) = total hs f + total hs g.
Proof. induction hs as [|p hs IH]; cbn; [reflexivity|]. rewrite IH. lia. Qed.
Lemma total_opp hs f : total hs (fun p => - f p) = - total hs f.
Proof. induction hs as [|p hs IH]; cbn; [reflexivity|]. rewrite IH. lia. Qed.

Lemma total_one hs q a : NoDup hs -> In q hs -> total hs (fun p => here prin_eq_dec p q a) = a.
Proof.
  induction 1 as [|p hs Hn Nd IH]; intros HI; [destruct HI|].
  cbn. unfold here at 1. destruct (prin_eq_dec p q) as [->|Ne].
  - rewrite (total_ext hs _ (fun _ => 0)).
    + assert (total hs (fun _ => 0) = 0) as ->; [|lia]. clear. induction hs; cbn; [|rewrite IHhs]; lia.
    + intros p' Hp'. unfold here. destruct (prin_eq_dec p' q) as [->|]; [contradiction|reflexivity].
  - destruct HI as [->|HI]; [contradiction|]. rewrite IH; auto.
Qed.

Lemma total_zero hs : total hs (fun _ => 0) = 0.
Proof. induction hs; cbn; lia. Qed.

(** enlarge the list of holders *)
Lemma add_holder hs q f : NoDup hs -> (forall p, f p <> 0 -> In p hs) ->
  exists hs', NoDup hs' /\ In q hs' /\ (forall p, In p hs -> In p hs') /\ total hs' f = total hs f.
Proof.
  intros Nd Hf. destruct (in_dec prin_eq_dec q hs) as [HI|HI].
  - exists hs; auto.
  - exists (q :: hs). split; [constructor; auto|]. split; [left; auto|]. split; [right; auto|].
    cbn. destruct (Z.eq_dec (f q) 0) as [->|Ne]; [lia|]. contradiction (HI (Hf _ Ne)).
Qed.

Theorem applied_conserved cap l e l' : legal cap l e -> applied l e l' -> conserved l -> conserved l'.
Proof.
  intros L A C n. destruct (C n) as (Pos & hs & Nd & Hh & Hs). destruct A as [As Ab _].
  split.
  - intros p. rewrite Ab. specialize (Pos p). destruct e as [n' to a|n' from a|n' from to a| | |]; cbn in *; try lia; unfold here.
    + destruct (name_eq_dec n n'), (prin_eq_dec p to); lia.
    + destruct (name_eq_dec n n') as [->|], (prin_eq_dec p from) as [->|]; lia.
    + destruct (name_eq_dec n n'), (prin_eq_dec p to), (prin_eq_dec p from); subst; lia.
  - assert (forall q1 q2, exists hs', NoDup hs' /\ In q1 hs' /\ In q2 hs' /\ (forall p, l_bal l n p <> 0 -> In p hs') /\
              total hs' (l_bal l n) = total hs (l_bal l n)) as Ext.
    { intros q1 q2. destruct (add_holder hs q1 (l_bal l n) Nd Hh) as (h1 & N1 & I1 & S1 & T1).
      destruct (add_holder h1 q2 (l_bal l n) N1 (fun p H => S1 p (Hh p H))) as (h2 & N2 & I2 & S2 & T2).
      exists h2. repeat split; auto. rewrite T2, T1. reflexivity. }
    assert (forall q1 q2 k1 k2,
       (forall p, l_bal l' n p = l_bal l n p + (here prin_eq_dec p q1 k1 + here prin_eq_dec p q2 k2)) ->
       l_supply l' n = l_supply l n + (k1 + k2) ->
       exists hs, NoDup hs /\ (forall p, l_bal l' n p <> 0 -> In p hs) /\ l_supply l' n = total hs (l_bal l' n)) as Fin.
    { intros q1 q2 k1 k2 Hb Hsup. destruct (Ext q1 q2) as (h & N & I1 & I2 & Hin & T).
      exists h. split; [exact N|]. split.
      - intros p Hp. rewrite Hb in Hp. unfold here in Hp.
        destruct (prin_eq_dec p q1) as [->|]; [exact I1|]. destruct (prin_eq_dec p q2) as [->|]; [exact I2|].
        apply Hin. lia.
      - rewrite Hsup, Hs, <- T. rewrite (total_ext h (l_bal l' n) _ (fun p _ => Hb p)).
        rewrite total_add, total_add, !total_one by assumption. reflexivity. }
    destruct (Ext (PStd 0 []) (PStd 0 [])) as (h0 & _).
    destruct e as [n' to a|n' from a|n' from to a| | |]; cbn in As, Ab.
    + unfold here in As, Ab. destruct (name_eq_dec n n') as [->|Ne].
      * apply (Fin to to a 0).
        -- intro p. rewrite Ab. unfold here. destruct (name_eq_dec n' n'); [|congruence]. destruct (prin_eq_dec p to); lia.
        -- rewrite As. destruct (name_eq_dec n' n'); [lia|congruence].
      * apply (Fin to to 0 0).
        -- intro p. rewrite Ab. unfold here. destruct (name_eq_dec n n'); [congruence|]. destruct (prin_eq_dec p to); lia.
        -- rewrite As. destruct (name_eq_dec n n'); [congruence|lia].
    + unfold here in As, Ab. destruct (name_eq_dec n n') as [->|Ne].
      * apply (Fin from from (-a) 0).
        -- intro p. rewrite Ab. unfold here. destruct (name_eq_dec n' n'); [|congruence]. destruct (prin_eq_dec p from); lia.
        -- rewrite As. destruct (name_eq_dec n' n'); [lia|congruence].
      * apply (Fin from from 0 0).
        -- intro p. rewrite Ab. unfold here. destruct (name_eq_dec n n'); [congruence|]. destruct (prin_eq_dec p from); lia.
        -- rewrite As. destruct (name_eq_dec n n'); [congruence|lia].
    + destruct (name_eq_dec n n') as [->|Ne].
      * apply (Fin to from a (-a)).
        -- intro p. rewrite Ab. unfold here. destruct (name_eq_dec n' n'); [|congruence]. destruct (prin_eq_dec p from), (prin_eq_dec p to); lia.
        -- rewrite As. lia.
      * apply (Fin to from 0 0).
        -- intro p. rewrite Ab. unfold here. destruct (name_eq_dec n n'); [congruence|]. destruct (prin_eq_dec p from), (prin_eq_dec p to); lia.
        -- rewrite As. lia.
    + apply (Fin (PStd 0 []) (PStd 0 []) 0 0); [|rewrite As; lia]. intro p. rewrite Ab. unfold here. destruct (prin_eq_dec p (PStd 0 [])); lia.
    + apply (Fin (PStd 0 []) (PStd 0 []) 0 0); [|rewrite As; lia]. intro p. rewrite Ab. unfold here. destruct (prin_eq_dec p (PStd 0 [])); lia.
    + apply (Fin (PStd 0 []) (PStd 0 []) 0 0); [|rewrite As; lia]. intro p. rewrite Ab. unfold here. destruct (prin_eq_dec p (PStd 0 [])); lia.
Qed.

Lemma same_conserved l l' : same_ledger l l' -> conserved l -> conserved l'.
Proof.
  intros [Ss Sb _] C n. destruct (C n) as (Pos & hs & Nd & Hh & Hs). split.
  - intro p. rewrite Sb. auto.
  - exists hs. split; [exact Nd|]. split.
    + intros p. rewrite Sb. auto.
    + rewrite Ss, Hs. apply total_ext. intros. rewrite Sb. reflexivity.
Qed.

Theorem history_conserved cap l evs l' : history cap l evs l' -> conserved l -> conserved l'.
Proof.
  induction 1; intro C.
  - eapply same_conserved; eauto.
  - eapply applied_conserved; eauto.
Qed.

(** the supply stays within the cap, and within 128 bits *)
Theorem history_cap cap l evs l' n c : history cap l evs l' ->
  cap n = Some c -> l_supply l n <= c -> l_supply l' n <= c.
Proof.
  intros Hh Hc. induction Hh as [l' S|e evs l1 l2 Hh IH L A]; intro H0.
  - rewrite (sl_supply _ _ S). exact H0.
  - specialize (IH H0). rewrite (ap_supply _ _ _ A).
    destruct e as [n' to a|n' from a|n' from to a| | |]; cbn in *; unfold here; try lia.
    + destruct (name_eq_dec n n') as [->|]; [destruct L as (_ & _ & L); specialize (L _ Hc)|]; lia.
    + destruct (name_eq_dec n n') as [->|]; lia.
Qed.

Theorem history_range cap l evs l' n : history cap l evs l' ->
  l_supply l n < 2 ^ 128 -> l_supply l' n < 2 ^ 128.
Proof.
  intros Hh. induction Hh as [l' S|e evs l1 l2 Hh IH L A]; intro H0.
  - rewrite (sl_supply _ _ S). exact H0.
  - specialize (IH H0). rewrite (ap_supply _ _ _ A).
    destruct e as [n' to a|n' from a|n' from to a| | |]; cbn in *; unfold here; try lia.
    + destruct (name_eq_dec n n') as [->|]; lia.
    + destruct (name_eq_dec n n') as [->|]; lia.
Qed.

(** a balance shrinks only by a burn or transfer event naming its holder *)
Theorem history_debit cap l evs l' n p : history cap l evs l' -> l_bal l' n p < l_bal l n p ->
  exists a, In (EvFtBurn n p a) evs \/ exists q, In (EvFtTransfer n p q a) evs.
Proof.
  induction 1 as [l' S|e evs l1 l2 Hh IH L A]; intro Hlt.
  - rewrite (sl_bal _ _ S) in Hlt. lia.
  - destruct (Z_lt_dec (l_bal l1 n p) (l_bal l n p)) as [Hl|Hl].
    + destruct (IH Hl) as (a & [Hi|(q & Hi)]); exists a; [left|right; exists q]; right; exact Hi.
    + assert (balance_change e n p < 0) as Hneg by (rewrite (ap_bal _ _ _ A) in Hlt; lia).
      destruct e as [n' to a|n' from a|n' from to a| | |]; cbn in Hneg, L; unfold here in Hneg; try lia.
      * destruct (name_eq_dec n n'), (prin_eq_dec p to); lia.
      * destruct (name_eq_dec n n') as [->|], (prin_eq_dec p from) as [->|]; try lia. exists a. left. left. reflexivity.
      * destruct (name_eq_dec n n'), (prin_eq_dec p from), (prin_eq_dec p to); try lia; subst.
        exists a. right. exists to. left. reflexivity.
Qed.

(** an owned NFT leaves its owner only by a burn or transfer event naming that owner *)
Theorem history_owner cap l evs l' n i p : history cap l evs l' ->
  l_owner l n i = Some p -> l_owner l' n i <> Some p ->
  In (EvNftBurn n i p) evs \/ exists q, In (EvNftTransfer n i p q) evs.
Proof.
  intros Hh H0. induction Hh as [l' S|e evs l1 l2 Hh IH L A]; intro Hne.
  - rewrite (sl_owner _ _ S) in Hne. contradiction.
  - assert ({l_owner l1 n i = Some p} + {l_owner l1 n i <> Some p}) as [H1|H1].
    { destruct (l_owner l1 n i) as [q|]; [destruct (prin_eq_dec q p) as [->|]|]; [left|right|right]; congruence. }
    + rewrite (ap_owner _ _ _ A) in Hne. destruct e as [| | |n' i' to|n' i' from|n' i' from to]; cbn in Hne, L; try contradiction.
      * destruct (name_eq_dec n n') as [->|]; [|contradiction]. destruct (value_eq_dec i i') as [->|]; [|contradiction]. congruence.
      * destruct (name_eq_dec n n') as [->|]; [|contradiction]. destruct (value_eq_dec i i') as [->|]; [|contradiction].
        left. left. congruence.
      * destruct (name_eq_dec n n') as [->|]; [|contradiction]. destruct (value_eq_dec i i') as [->|]; [|contradiction].
        right. exists to. left. destruct L as [_ L]. congruence.
    + destruct (IH H1) as [Hi|(q & Hi)]; [left; right; exact Hi|right; exists q; right; exact Hi].
Qed.

(** an NFT becomes owned only by a mint or transfer event to its new owner *)
Theorem history_gain cap l evs l' n i p : history cap l evs l' ->
  l_owner l n i <> Some p -> l_owner l' n i = Some p ->
  In (EvNftMint n i p) evs \/ exists q, In (EvNftTransfer n i q p) evs.
Proof.
  intros Hh H0. induction Hh as [l' S|e evs l1 l2 Hh IH L A]; intro He.
  - rewrite (sl_owner _ _ S) in He. contradiction.
  - assert ({l_owner l1 n i = Some p} + {l_owner l1 n i <> Some p}) as [H1|H1].
    { destruct (l_owner l1 n i) as [q|]; [destruct (prin_eq_dec q p) as [->|]|]; [left|right|right]; congruence. }
    + destruct (IH H1) as [Hi|(q & Hi)]; [left; right; exact Hi|right; exists q; right; exact Hi].
    + rewrite (ap_owner _ _ _ A) in He. destruct e as [| | |n' i' to|n' i' from|n' i' from to]; cbn in He, L; try contradiction.
      * destruct (name_eq_dec n n') as [->|]; [|contradiction]. destruct (value_eq_dec i i') as [->|]; [|contradiction].
        left. left. congruence.
      * destruct (name_eq_dec n n') as [->|]; [|contradiction]. destruct (value_eq_dec i i') as [->|]; [discriminate|contradiction].
      * destruct (name_eq_dec n n') as [->|]; [|contradiction]. destruct (value_eq_dec i i') as [->|]; [|contradiction].
        right. exists from. left. congruence.
Qed.
