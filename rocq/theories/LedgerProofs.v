(** * The ledger invariant: every host function, every module. *)
From Coq Require Import ZArith String List Bool Lia.
Import ListNotations.
From Verif Require Import Wasm StdEnv Clar Codec Ledger SpecLedger Invar.
Open Scope Z_scope.

(** the ledger held in the tables *)
Definition ledger_of (d : db) : ledger :=
  mkledger (fun n => match d_supply d n with Some s => s | None => 0 end) (d_bal d) (d_owner d).

Section Inv.
Variable d0 : db.
Variable cap : name -> option Z.

(** the tables [d] are what the events since [d0] say *)
Definition explained (d : db) : Prop :=
  (forall n, cap n <> None -> d_supply d n <> None) /\
  exists evs, d_events d = evs ++ d_events d0 /\ history cap (ledger_of d0) evs (ledger_of d).

Record inv (g : gctx) : Prop := {
  iv_view : g_view g = None;
  iv_cap : forall n c, cap n = Some c -> g_ft g n = Some (Some c);
  iv_db : explained (g_db g);
  iv_layers : Forall explained (g_layers g) }.

Definition inv_trap (g : gctx) : Prop := Forall explained (g_layers g).

Definition hkeeps {A} (r : hres A) : Prop :=
  match r with HOk _ g => inv g | HErr g => inv_trap g end.

Lemma inv_inv_trap g : inv g -> inv_trap g.
Proof. intros []; auto. Qed.

Lemma expl_event d d' e : explained d ->
  legal cap (ledger_of d) e -> applied (ledger_of d) e (ledger_of d') ->
  d_events d' = e :: d_events d ->
  (forall n, d_supply d n <> None -> d_supply d' n <> None) -> explained d'.
Proof.
  intros (Hc & evs & He & Hh) L A Ev Sup. split; [auto|].
  exists (e :: evs). split; [rewrite Ev, He; reflexivity|]. econstructor; eauto.
Qed.

Lemma history_same l evs l1 l2 : history cap l evs l1 -> same_ledger l1 l2 -> history cap l evs l2.
Proof.
  intros Hh S. destruct Hh as [l' S'|e evs l0 l1 Hh L A].
  - constructor. destruct S as [a b c], S' as [a' b' c']. split; intros; [rewrite a, a'|rewrite b, b'|rewrite c, c']; reflexivity.
  - econstructor; [exact Hh|exact L|]. destruct S as [a b c], A as [a' b' c'].
    split; intros; [rewrite a, a'|rewrite b, b'|rewrite c, c']; reflexivity.
Qed.

Lemma expl_same d d' : explained d -> same_ledger (ledger_of d) (ledger_of d') ->
  d_events d' = d_events d -> (forall n, d_supply d n <> None -> d_supply d' n <> None) -> explained d'.
Proof.
  intros (Hc & evs & He & Hh) S Ev Sup. split; [auto|].
  exists evs. split; [congruence|]. eapply history_same; eauto.
Qed.

Lemma inv_db g g' : inv g -> explained (g_db g') -> g_view g' = g_view g -> g_ft g' = g_ft g ->
  g_layers g' = g_layers g -> inv g'.
Proof. intros [a b c d] E1 E2 E3 E4. split; [congruence|rewrite E3; auto|auto|rewrite E4; auto]. Qed.

Lemma nupd_same {A} (f : name -> A) n a : nupd f n a n = a.
Proof. unfold nupd. destruct (name_eq_dec n n); congruence. Qed.

Lemma supply_set d n s x : d_supply d n <> None \/ True -> d_supply d x <> None -> nupd (d_supply d) n (Some s) x <> None.
Proof. intros _ H. unfold nupd. destruct (name_eq_dec x n); congruence. Qed.

Ltac zb := repeat match goal with
  | H : (_ =? _) = true |- _ => apply Z.eqb_eq in H
  | H : (_ =? _) = false |- _ => apply Z.eqb_neq in H
  | H : (_ <? _) = true |- _ => apply Z.ltb_lt in H
  | H : (_ <? _) = false |- _ => apply Z.ltb_ge in H
  | H : (_ <=? _) = true |- _ => apply Z.leb_le in H
  | H : (_ <=? _) = false |- _ => apply Z.leb_gt in H
  end.

(** the new tables of each operation *)
Definition minted d n p a s := add_event (set_bal (set_supply d n (s + a)) n p (d_bal d n p + a)) (EvFtMint n p a).
Definition burned d n p a s := add_event (set_bal (set_supply d n (s - a)) n p (d_bal d n p - a)) (EvFtBurn n p a).
Definition moved d n p q a := add_event (set_bal (set_bal d n p (d_bal d n p - a)) n q (d_bal d n q + a)) (EvFtTransfer n p q a).

Lemma expl_minted d n p a s : explained d -> d_supply d n = Some s -> 0 < a ->
  s + a < 2 ^ 128 -> (forall c, cap n = Some c -> s + a <= c) -> explained (minted d n p a s).
Proof.
  intros Ex Hs Ha Hr Hcap. eapply (expl_event d _ (EvFtMint n p a)); [exact Ex| | |reflexivity|].
  - cbn. rewrite Hs. auto.
  - split; cbn.
    + intro n'. unfold nupd, here. destruct (name_eq_dec n' n) as [->|]; [rewrite Hs|]; lia.
    + intros n' p'. unfold nupd, pupd, here. destruct (name_eq_dec n' n) as [->|]; [|lia].
      destruct (prin_eq_dec p' p) as [->|]; lia.
    + reflexivity.
  - intros x. cbn. apply supply_set. auto.
Qed.

Lemma expl_burned d n p a s : explained d -> d_supply d n = Some s -> 0 < a <= d_bal d n p ->
  explained (burned d n p a s).
Proof.
  intros Ex Hs Ha. eapply (expl_event d _ (EvFtBurn n p a)); [exact Ex| | |reflexivity|].
  - exact Ha.
  - split; cbn.
    + intro n'. unfold nupd, here. destruct (name_eq_dec n' n) as [->|]; [rewrite Hs|]; lia.
    + intros n' p'. unfold nupd, pupd, here. destruct (name_eq_dec n' n) as [->|]; [|lia].
      destruct (prin_eq_dec p' p) as [->|]; lia.
    + reflexivity.
  - intros x. cbn. apply supply_set. auto.
Qed.

Lemma expl_moved d n p q a : explained d -> p <> q -> 0 < a <= d_bal d n p ->
  explained (moved d n p q a).
Proof.
  intros Ex Hne Ha. eapply (expl_event d _ (EvFtTransfer n p q a)); [exact Ex| | |reflexivity|].
  - cbn. auto.
  - split; cbn.
    + intro n'. lia.
    + intros n' p'. unfold nupd, pupd, here. destruct (name_eq_dec n' n) as [->|]; [|lia].
      destruct (name_eq_dec n n); [|congruence].
      destruct (prin_eq_dec p' q) as [->|]; destruct (prin_eq_dec q p); try congruence; try lia.
      destruct (prin_eq_dec p' p) as [->|]; lia.
    + reflexivity.
  - auto.
Qed.

Definition inv_nft d n i o e := add_event (set_owner d n i o) e.

Lemma expl_nft_mint d n i p : explained d -> d_owner d n i = None -> explained (inv_nft d n i (Some p) (EvNftMint n i p)).
Proof.
  intros Ex Ho. eapply (expl_event d _ (EvNftMint n i p)); [exact Ex|exact Ho| |reflexivity|auto].
  split; cbn; intros; try lia. unfold nupd, vupd. destruct (name_eq_dec n0 n) as [->|]; [|reflexivity].
  destruct (value_eq_dec i0 i) as [->|]; reflexivity.
Qed.
Lemma expl_nft_burn d n i p : explained d -> d_owner d n i = Some p -> explained (inv_nft d n i None (EvNftBurn n i p)).
Proof.
  intros Ex Ho. eapply (expl_event d _ (EvNftBurn n i p)); [exact Ex|exact Ho| |reflexivity|auto].
  split; cbn; intros; try lia. unfold nupd, vupd. destruct (name_eq_dec n0 n) as [->|]; [|reflexivity].
  destruct (value_eq_dec i0 i) as [->|]; reflexivity.
Qed.
Lemma expl_nft_transfer d n i p q : explained d -> p <> q -> d_owner d n i = Some p ->
  explained (inv_nft d n i (Some q) (EvNftTransfer n i p q)).
Proof.
  intros Ex Hne Ho. eapply (expl_event d _ (EvNftTransfer n i p q)); [exact Ex|split; [exact Hne|exact Ho]| |reflexivity|auto].
  split; cbn; intros; try lia. unfold nupd, vupd. destruct (name_eq_dec n0 n) as [->|]; [|reflexivity].
  destruct (value_eq_dec i0 i) as [->|]; reflexivity.
Qed.
Lemma expl_var d n v : explained d -> explained (set_var d n v).
Proof. intro. eapply expl_same; [eassumption| |reflexivity|auto]. split; reflexivity. Qed.
Lemma expl_map d n k v : explained d -> explained (set_map d n k v).
Proof. intro. eapply expl_same; [eassumption| |reflexivity|auto]. split; reflexivity. Qed.
Lemma expl_define d n : explained d -> d_supply d n = None -> explained (set_supply d n 0).
Proof.
  intros Ex Hs. eapply expl_same; [exact Ex| |reflexivity|].
  - split; try reflexivity. intro n'. cbn. unfold nupd. destruct (name_eq_dec n' n) as [->|]; [rewrite Hs|]; reflexivity.
  - intro x. cbn. apply supply_set; auto.
Qed.


(** ** Stepping through host functions *)
Definition hwp {A} (x : H A) (Q : A -> gctx -> Prop) (R : gctx -> Prop) (g : gctx) : Prop :=
  match x g with HOk a g' => Q a g' | HErr g' => R g' end.

Lemma hwp_bind {A B} (x : H A) (k : A -> H B) Q R g :
  hwp x (fun a g' => hwp (k a) Q R g') R g -> hwp (hbind x k) Q R g.
Proof. unfold hwp, hbind. destruct (x g); auto. Qed.
Lemma hwp_ret {A} (a : A) (Q : A -> gctx -> Prop) R g : Q a g -> hwp (hret a) Q R g.
Proof. auto. Qed.
Lemma hwp_fail {A} (Q : A -> gctx -> Prop) (R : gctx -> Prop) g : R g -> hwp hfail Q R g.
Proof. auto. Qed.
Lemma hwp_get (Q : gctx -> gctx -> Prop) R g : Q g g -> hwp hget Q R g.
Proof. auto. Qed.
Lemma hwp_put g' (Q : unit -> gctx -> Prop) R g : Q tt g' -> hwp (hput g') Q R g.
Proof. auto. Qed.
Lemma hwp_mod f (Q : unit -> gctx -> Prop) R g : Q tt (f g) -> hwp (hmod f) Q R g.
Proof. auto. Qed.
Lemma hwp_dbmod f (Q : unit -> gctx -> Prop) R g : Q tt (g_with_db g (f (g_db g))) -> hwp (db_mod f) Q R g.
Proof. auto. Qed.
Lemma hwp_opt {A} (o : option A) (Q : A -> gctx -> Prop) (R : gctx -> Prop) g :
  (forall a, o = Some a -> Q a g) -> R g -> hwp (hopt o) Q R g.
Proof. unfold hwp, hopt. destruct o; auto. Qed.
Lemma hwp_guard b (Q : unit -> gctx -> Prop) (R : gctx -> Prop) g : (b = true -> Q tt g) -> R g -> hwp (hguard b) Q R g.
Proof. unfold hwp, hguard. destruct b; auto. Qed.
Lemma hwp_memory n (Q : unit -> gctx -> Prop) (R : gctx -> Prop) g :
  (n <= g_memory g -> Q tt (g_with_memory g (g_memory g - n))) -> R g -> hwp (add_memory n) Q R g.
Proof. unfold hwp, add_memory. destruct (n <=? g_memory g) eqn:E; auto. intros. match goal with H : _ -> Q _ _ |- _ => apply H end. lia. Qed.
Lemma hwp_reading (Q : db -> gctx -> Prop) R g : g_view g = None -> Q (g_db g) g -> hwp reading Q R g.
Proof. unfold hwp, reading, hbind, hget, hopt, cur. intros ->. auto. Qed.
Lemma hwp_supply n (Q : Z -> gctx -> Prop) (R : gctx -> Prop) g : g_view g = None ->
  (forall s, d_supply (g_db g) n = Some s -> Q s g) -> R g -> hwp (get_ft_supply n) Q R g.
Proof. intros Hv HQ HR. unfold get_ft_supply. apply hwp_bind, hwp_reading; [exact Hv|]. apply hwp_opt; auto. Qed.
Lemma hwp_balance n p (Q : Z -> gctx -> Prop) (R : gctx -> Prop) g : g_view g = None ->
  (forall s, d_supply (g_db g) n = Some s -> Q (d_bal (g_db g) n p) g) -> R g -> hwp (get_ft_balance n p) Q R g.
Proof.
  intros Hv HQ HR. unfold get_ft_balance. apply hwp_bind, hwp_reading; [exact Hv|].
  destruct (d_supply (g_db g) n) eqn:E; [apply hwp_ret; eauto|apply hwp_fail; exact HR].
Qed.
Lemma hwp_owner n i (Q : option prin -> gctx -> Prop) (R : gctx -> Prop) g : g_view g = None ->
  Q (d_owner (g_db g) n i) g -> hwp (get_nft_owner n i) Q R g.
Proof. intros Hv HQ. unfold get_nft_owner. apply hwp_bind, hwp_reading; [exact Hv|]. apply hwp_ret. exact HQ. Qed.

Lemma hwp_keeps {A} (x : H A) g : hwp x (fun _ => inv) inv_trap g -> hkeeps (x g).
Proof. unfold hwp, hkeeps. destruct (x g); auto. Qed.

Ltac gcbn := cbn [g_self g_an g_ft g_nft g_vars g_maps g_db g_layers g_ro g_hist g_view g_bhh g_sender g_senders
       g_caller g_callers g_memory g_with_db g_with_memory g_with_tx g_with_view g_with_sender g_with_caller g_with_meta
       set_supply set_bal set_owner set_var set_map add_event d_supply d_bal d_owner d_var d_map d_events fst snd].
Ltac hrule Hv :=
  lazymatch goal with
  | |- hwp (hbind _ _) _ _ _ => apply hwp_bind
  | |- hwp (hret _) _ _ _ => apply hwp_ret
  | |- hwp hfail _ _ _ => apply hwp_fail
  | |- hwp hget _ _ _ => apply hwp_get
  | |- hwp (hput _) _ _ _ => apply hwp_put
  | |- hwp (hmod _) _ _ _ => apply hwp_mod
  | |- hwp (db_mod _) _ _ _ => apply hwp_dbmod
  | |- hwp (emit _) _ _ _ => apply hwp_dbmod
  | |- hwp (set_ft_balance _ _ _) _ _ _ => apply hwp_dbmod
  | |- hwp (hopt _) _ _ _ => apply hwp_opt; [intros ? ?|]
  | |- hwp (hguard _) _ _ _ => apply hwp_guard; [intro|]
  | |- hwp (add_memory _) _ _ _ => apply hwp_memory; [intro|]
  | |- hwp reading _ _ _ => apply hwp_reading; [exact Hv|]
  | |- hwp (get_ft_supply _) _ _ _ => apply hwp_supply; [exact Hv|intros ? ?|]
  | |- hwp (get_ft_balance _ _) _ _ _ => apply hwp_balance; [exact Hv|intros ? ?|]
  | |- hwp (get_nft_owner _ _) _ _ _ => apply hwp_owner; [exact Hv|]
  | |- hwp (if ?b then _ else _) _ _ _ => let E := fresh "E" in destruct b eqn:E
  | |- hwp (match ?x with _ => _ end) _ _ _ => let E := fresh "E" in destruct x eqn:E
  end; gcbn.
Ltac hrun Hv := repeat hrule Hv.

(** ** Each operation *)
Ltac triv Iv := try exact Iv; try exact (iv_layers _ Iv).

Lemma keep_mint n a p g : inv g -> 0 <= a -> hkeeps (op_ft_mint n a p g).
Proof.
  intros Iv Ha. pose proof (iv_view g Iv) as Hv. apply hwp_keeps.
  unfold op_ft_mint, checked_increase_token_supply. hrun Hv; triv Iv. zb.
  eapply (inv_db g); [exact Iv| |reflexivity|reflexivity|reflexivity]. gcbn.
  apply (expl_minted (g_db g) n p a s); [exact (iv_db g Iv)|assumption|lia|lia|].
  intros c Hc. pose proof (iv_cap g Iv n c Hc) as Hc'. assert (o = Some c) as -> by congruence. zb. assumption.
Qed.

Lemma keep_burn n a p g : inv g -> 0 <= a -> hkeeps (op_ft_burn n a p g).
Proof.
  intros Iv Ha. pose proof (iv_view g Iv) as Hv. apply hwp_keeps.
  unfold op_ft_burn, checked_decrease_token_supply. hrun Hv; triv Iv. zb.
  eapply (inv_db g); [exact Iv| |reflexivity|reflexivity|reflexivity]. gcbn.
  apply (expl_burned (g_db g) n p a s0); [exact (iv_db g Iv)|assumption|lia].
Qed.

Lemma keep_transfer n a p q g : inv g -> 0 <= a -> hkeeps (op_ft_transfer n a p q g).
Proof.
  intros Iv Ha. pose proof (iv_view g Iv) as Hv. apply hwp_keeps.
  unfold op_ft_transfer. hrun Hv; triv Iv. zb.
  eapply (inv_db g); [exact Iv| |reflexivity|reflexivity|reflexivity]. gcbn.
  apply (expl_moved (g_db g) n p q a); [exact (iv_db g Iv)|assumption|lia].
Qed.

Lemma keep_supply n g : inv g -> hkeeps (op_ft_get_supply n g).
Proof.
  intros Iv. pose proof (iv_view g Iv) as Hv. apply hwp_keeps. unfold op_ft_get_supply. hrun Hv; triv Iv.
Qed.
Lemma keep_balance n p g : inv g -> hkeeps (op_ft_get_balance n p g).
Proof.
  intros Iv. pose proof (iv_view g Iv) as Hv. apply hwp_keeps. unfold op_ft_get_balance. hrun Hv; triv Iv.
Qed.

Lemma keep_get_owner n t i g : inv g -> hkeeps (op_nft_get_owner n t i g).
Proof.
  intros Iv. pose proof (iv_view g Iv) as Hv. apply hwp_keeps. unfold op_nft_get_owner. hrun Hv; triv Iv.
Qed.
Lemma keep_nft_mint n t i p g : inv g -> hkeeps (op_nft_mint n t i p g).
Proof.
  intros Iv. pose proof (iv_view g Iv) as Hv. apply hwp_keeps. unfold op_nft_mint. hrun Hv; triv Iv.
  eapply (inv_db g); [exact Iv| |reflexivity|reflexivity|reflexivity]. gcbn.
  apply (expl_nft_mint (g_db g) n i p); [exact (iv_db g Iv)|assumption].
Qed.
Lemma keep_nft_burn n t i p g : inv g -> hkeeps (op_nft_burn n t i p g).
Proof.
  intros Iv. pose proof (iv_view g Iv) as Hv. apply hwp_keeps. unfold op_nft_burn. hrun Hv; triv Iv.
  eapply (inv_db g); [exact Iv| |reflexivity|reflexivity|reflexivity]. gcbn. subst.
  apply (expl_nft_burn (g_db g) n i p); [exact (iv_db g Iv)|assumption].
Qed.
Lemma keep_nft_transfer n t i p q g : inv g -> hkeeps (op_nft_transfer n t i p q g).
Proof.
  intros Iv. pose proof (iv_view g Iv) as Hv. apply hwp_keeps. unfold op_nft_transfer. hrun Hv; triv Iv.
  eapply (inv_db g); [exact Iv| |reflexivity|reflexivity|reflexivity]. gcbn. subst.
  apply (expl_nft_transfer (g_db g) n i p q); [exact (iv_db g Iv)|assumption|assumption].
Qed.

Lemma keep_get_variable n g : inv g -> hkeeps (op_get_variable n g).
Proof. intros Iv. pose proof (iv_view g Iv) as Hv. apply hwp_keeps. unfold op_get_variable. hrun Hv; triv Iv. Qed.
Lemma keep_set_variable n t v g : inv g -> hkeeps (op_set_variable n t v g).
Proof.
  intros Iv. pose proof (iv_view g Iv) as Hv. apply hwp_keeps. unfold op_set_variable. hrun Hv; triv Iv.
  eapply (inv_db g); [exact Iv| |reflexivity|reflexivity|reflexivity]. apply expl_var. exact (iv_db g Iv).
Qed.
Lemma keep_map_get n kt k g : inv g -> hkeeps (op_map_get n kt k g).
Proof. intros Iv. pose proof (iv_view g Iv) as Hv. apply hwp_keeps. unfold op_map_get. hrun Hv; triv Iv. Qed.
Lemma keep_map_set n kt vt k v g : inv g -> hkeeps (op_map_set n kt vt k v g).
Proof.
  intros Iv. pose proof (iv_view g Iv) as Hv. apply hwp_keeps. unfold op_map_set. hrun Hv; triv Iv.
  all: eapply (inv_db g); [exact Iv| |reflexivity|reflexivity|reflexivity]; apply expl_map; exact (iv_db g Iv).
Qed.
Lemma keep_map_insert n kt vt k v g : inv g -> hkeeps (op_map_insert n kt vt k v g).
Proof.
  intros Iv. pose proof (iv_view g Iv) as Hv. apply hwp_keeps. unfold op_map_insert. hrun Hv; triv Iv.
  - eapply (inv_db g); [exact Iv| |reflexivity|reflexivity|reflexivity]; exact (iv_db g Iv).
  - eapply (inv_db g); [exact Iv| |reflexivity|reflexivity|reflexivity]; apply expl_map; exact (iv_db g Iv).
Qed.
Lemma keep_map_delete n kt k g : inv g -> hkeeps (op_map_delete n kt k g).
Proof.
  intros Iv. pose proof (iv_view g Iv) as Hv. apply hwp_keeps. unfold op_map_delete. hrun Hv; triv Iv.
  - eapply (inv_db g); [exact Iv| |reflexivity|reflexivity|reflexivity]; apply expl_map; exact (iv_db g Iv).
  - eapply (inv_db g); [exact Iv| |reflexivity|reflexivity|reflexivity]; exact (iv_db g Iv).
Qed.

Lemma keep_define_ft n i lo hi g : inv g -> hkeeps (op_define_ft n i lo hi g).
Proof.
  intros Iv. pose proof (iv_view g Iv) as Hv. apply hwp_keeps. unfold op_define_ft, initialising. hrun Hv; triv Iv.
  split; gcbn.
  - exact Hv.
  - intros n' c Hc. unfold nupd. destruct (name_eq_dec n' n) as [->|]; [|apply (iv_cap g Iv); exact Hc].
    destruct (iv_db g Iv) as [Hs _]. contradiction (Hs n); congruence.
  - apply (expl_define (g_db g) n); [exact (iv_db g Iv)|assumption].
  - exact (iv_layers g Iv).
Qed.
Lemma keep_define_nft n g : inv g -> hkeeps (op_define_nft n g).
Proof.
  intros Iv. pose proof (iv_view g Iv) as Hv. apply hwp_keeps. unfold op_define_nft, initialising. hrun Hv; triv Iv.
  eapply (inv_db g); [exact Iv| |reflexivity|reflexivity|reflexivity]; exact (iv_db g Iv).
Qed.
Lemma keep_define_map n g : inv g -> hkeeps (op_define_map n g).
Proof.
  intros Iv. pose proof (iv_view g Iv) as Hv. apply hwp_keeps. unfold op_define_map, initialising. hrun Hv; triv Iv.
  eapply (inv_db g); [exact Iv| |reflexivity|reflexivity|reflexivity]; exact (iv_db g Iv).
Qed.
Lemma keep_define_variable n t v g : inv g -> hkeeps (op_define_variable n t v g).
Proof.
  intros Iv. pose proof (iv_view g Iv) as Hv. apply hwp_keeps. unfold op_define_variable, initialising. hrun Hv; triv Iv.
  eapply (inv_db g); [exact Iv| |reflexivity|reflexivity|reflexivity]; apply expl_var; exact (iv_db g Iv).
Qed.

Lemma keep_begin g : inv g -> hkeeps (op_begin_public g).
Proof.
  intros Iv. apply hwp_keeps. unfold op_begin_public. hrun (iv_view g Iv). destruct Iv. split; gcbn; auto.
Qed.
Lemma keep_begin_ro g : inv g -> hkeeps (op_begin_read_only g).
Proof.
  intros Iv. apply hwp_keeps. unfold op_begin_read_only. hrun (iv_view g Iv). destruct Iv. split; gcbn; auto.
Qed.
Lemma keep_commit g : inv g -> hkeeps (op_commit g).
Proof.
  intros Iv. apply hwp_keeps. unfold op_commit. hrun (iv_view g Iv); triv Iv.
  destruct Iv as [a b c e]. rewrite E in e. inversion e. split; gcbn; auto.
Qed.
Lemma keep_roll_back g : inv g -> hkeeps (op_roll_back g).
Proof.
  intros Iv. apply hwp_keeps. unfold op_roll_back. hrun (iv_view g Iv); triv Iv.
  destruct Iv as [a b c e]. rewrite E in e. inversion e. split; gcbn; auto.
Qed.
Lemma keep_enter_as_contract g : inv g -> hkeeps (op_enter_as_contract g).
Proof.
  intros Iv. apply hwp_keeps. unfold op_enter_as_contract, push_caller, push_sender. hrun (iv_view g Iv).
  destruct Iv; split; auto.
Qed.
Lemma keep_exit_as_contract g : inv g -> hkeeps (op_exit_as_contract g).
Proof.
  intros Iv. destruct Iv as [a b c e]. apply hwp_keeps. unfold op_exit_as_contract, pop_sender, pop_caller.
  hrun a; try exact e; destruct (g_senders g); gcbn; try exact e; destruct (g_callers g); split; gcbn; auto.
Qed.

(** ** The imports *)
Lemma run_op_keeps st m r : hkeeps r -> keeps_r inv inv_trap (run_op st m r).
Proof. destruct r; auto. Qed.
Lemma amount_nonneg lo hi : 0 <= amount lo hi.
Proof.
  unfold amount. pose proof (Z.mod_pos_bound lo m64 eq_refl). pose proof (Z.mod_pos_bound hi m64 eq_refl). lia.
Qed.

Lemma return_value_keeps st t ro (r : hres value) : hkeeps r -> keeps_r inv inv_trap (return_value st t ro r).
Proof.
  unfold return_value. destruct r as [v g|g]; cbn [hkeeps]; intro Hk; [|exact Hk].
  destruct (write_to_wasm _ _ _ _ _ _) as [[[? ?] ?]|]; [exact Hk|apply inv_inv_trap; exact Hk].
Qed.

Theorem ledger_host_keeps n ps h args st : assoc n ledger_host = Some (ps, h) ->
  inv (shost st) -> keeps_r inv inv_trap (h args st).
Proof.
  intros Hn Iv. pose proof (inv_inv_trap _ Iv) as It.
  unfold ledger_host in Hn. cbn [assoc] in Hn.
  repeat match type of Hn with
  | (if ?b then _ else _) = _ => destruct b; [apply (f_equal (fun o => match o with Some x => snd x | None => h end)) in Hn; cbn [snd] in Hn; rewrite <- Hn; clear Hn|]
  end; [..|discriminate];
  unfold i_define_variable, i_define_ft, i_define_name, i_get_variable, i_set_variable, i_nullary, i_ft_get_supply,
    i_ft_get_balance, i_ft_burn, i_ft_mint, i_ft_transfer, i_nft_get_owner, i_nft_burn, i_nft_mint, i_nft_transfer,
    i_map_get, i_map_put, i_map_delete, i_principal;
  repeat (match goal with
  | |- keeps_r _ _ (run_op _ _ _) => apply run_op_keeps
  | |- keeps_r _ _ (return_value _ _ _ _) => apply return_value_keeps
  | |- keeps_r _ _ (host_err _) => exact It
  | |- keeps_r _ _ RStuck => exact Logic.I
  | |- keeps_r _ _ (match op_nft_get_owner ?n ?t ?i ?g with _ => _ end) =>
      pose proof (keep_get_owner n t i g Iv); destruct (op_nft_get_owner n t i g); cbn [hkeeps] in *
  | |- keeps_r _ _ (match ?x with _ => _ end) => destruct x
  | |- keeps_r _ _ (RTrap _ _) => cbn [keeps_r shost]; (assumption || apply inv_inv_trap; assumption)
  | |- keeps_r _ _ (RVals _ _) => cbn [keeps_r shost]; assumption
  end).
  all: eauto using keep_mint, keep_burn, keep_transfer, keep_supply, keep_balance, keep_nft_mint, keep_nft_burn,
    keep_nft_transfer, keep_get_variable, keep_set_variable, keep_map_get, keep_map_set, keep_map_insert,
    keep_map_delete, keep_define_ft, keep_define_nft, keep_define_map, keep_define_variable, keep_begin,
    keep_begin_ro, keep_commit, keep_roll_back, keep_enter_as_contract, keep_exit_as_contract, amount_nonneg.
Qed.
End Inv.
