(** * Only the four savepoint functions touch the savepoints. *)
From Coq Require Import ZArith String List Bool Lia.
Import ListNotations.
From Verif Require Import Wasm StdEnv Clar Codec Ledger SpecLedger Invar LedgerProofs Calls.
Open Scope Z_scope.

Definition sv {A} (S : list db * list bool) (r : hres A) : Prop :=
  match r with HOk _ g | HErr g => saves g = S end.

Lemma sv_bind {A B} (x : H A) (k : A -> H B) S g :
  sv S (x g) -> (forall a g', saves g' = S -> sv S (k a g')) -> sv S (hbind x k g).
Proof. unfold hbind. intros Hx Hk. destruct (x g); cbn in *; auto. Qed.
Lemma sv_reading S g : saves g = S -> sv S (reading g).
Proof. unfold reading, hbind, hget, hopt. intro Hs. destruct (cur g); exact Hs. Qed.
Lemma sv_pop_sender S g : saves g = S -> sv S (pop_sender g).
Proof. unfold pop_sender, hbind, hget, hput, hfail. intro Hs. destruct (g_sender g); [destruct (g_senders g)|]; exact Hs. Qed.
Lemma sv_pop_caller S g : saves g = S -> sv S (pop_caller g).
Proof. unfold pop_caller, hbind, hget, hput, hfail. intro Hs. destruct (g_caller g); [destruct (g_callers g)|]; exact Hs. Qed.
Lemma sv_memory S n g : saves g = S -> sv S (add_memory n g).
Proof. unfold add_memory. intro Hs. destruct (_ <=? _); exact Hs. Qed.

Ltac sv_rule :=
  match goal with
  | |- sv _ (hbind _ _ _) => apply sv_bind; [|intros ? ? ?]
  | |- sv _ (reading _) => apply sv_reading; assumption
  | |- sv _ (pop_sender _) => apply sv_pop_sender; assumption
  | |- sv _ (pop_caller _) => apply sv_pop_caller; assumption
  | |- sv _ (add_memory _ _) => apply sv_memory; assumption
  | |- sv _ (hret _ _) => assumption
  | |- sv _ (hfail _) => assumption
  | |- sv _ (hget _) => assumption
  | |- sv _ (db_mod _ _) => assumption
  | |- sv _ (hmod _ _) => assumption
  | |- sv _ (emit _ _) => assumption
  | |- sv _ (set_ft_balance _ _ _ _) => assumption
  | |- sv _ (hopt ?o _) => unfold hopt; destruct o; assumption
  | |- sv _ (hguard ?b _) => unfold hguard; destruct b; assumption
  | |- sv _ (initialising _) => unfold initialising
  | |- sv _ (get_ft_supply _ _) => unfold get_ft_supply
  | |- sv _ (get_ft_balance _ _ _) => unfold get_ft_balance
  | |- sv _ (get_nft_owner _ _ _) => unfold get_nft_owner
  | |- sv _ (checked_increase_token_supply _ _ _ _) => unfold checked_increase_token_supply
  | |- sv _ (checked_decrease_token_supply _ _ _) => unfold checked_decrease_token_supply
  | |- sv _ ((if ?b then _ else _) _) => destruct b
  | |- sv _ ((match ?x with _ => _ end) _) => destruct x
  end.

Definition sv_res (S : list db * list bool) (r : result gctx) : Prop :=
  match r with RVals _ st | RTrap _ st => saves (shost st) = S | _ => True end.
Lemma sv_run_op S st m r : sv S r -> sv_res S (run_op st m r).
Proof. destruct r; auto. Qed.
Lemma sv_return_value S st t ro (r : hres value) : sv S r -> sv_res S (return_value st t ro r).
Proof.
  unfold return_value. destruct r as [v g|g]; cbn; intro Hk; [|exact Hk].
  destruct (write_to_wasm _ _ _ _ _ _) as [[[? ?] ?]|]; exact Hk.
Qed.
Lemma sv_get_owner n t i g : sv (saves g) (op_nft_get_owner n t i g).
Proof. unfold op_nft_get_owner. assert (saves g = saves g) as Hs by reflexivity. repeat sv_rule. Qed.

Theorem ledger_host_saves n ps h args st : assoc n ledger_host = Some (ps, h) -> savepoint n = false ->
  match h args st with RVals _ st' | RTrap _ st' => saves (shost st') = saves (shost st) | _ => True end.
Proof.
  intros Hn Hs. change (sv_res (saves (shost st)) (h args st)).
  assert (saves (shost st) = saves (shost st)) as Hg by reflexivity.
  unfold savepoint in Hs. cbn [existsb] in Hs. repeat (apply orb_false_elim in Hs; destruct Hs as [? Hs]).
  unfold ledger_host in Hn. cbn [assoc] in Hn.
  rewrite !(String.eqb_sym _ n) in Hn.
  unfold f_begin, f_begin_ro, f_commit, f_roll_back in *.
  repeat match type of Hn with
  | (if String.eqb ?n "stdlib.begin_public_call" then _ else _) = _ => replace (String.eqb n "stdlib.begin_public_call") with false in Hn by congruence
  | (if String.eqb ?n "stdlib.begin_read_only_call" then _ else _) = _ => replace (String.eqb n "stdlib.begin_read_only_call") with false in Hn by congruence
  | (if String.eqb ?n "stdlib.commit_call" then _ else _) = _ => replace (String.eqb n "stdlib.commit_call") with false in Hn by congruence
  | (if String.eqb ?n "stdlib.roll_back_call" then _ else _) = _ => replace (String.eqb n "stdlib.roll_back_call") with false in Hn by congruence
  | (if ?b then _ else _) = _ => destruct b; [apply (f_equal (fun o => match o with Some x => snd x | None => h end)) in Hn; cbn [snd] in Hn; rewrite <- Hn; clear Hn|]
  end; [..|discriminate];
  unfold i_define_variable, i_define_ft, i_define_name, i_get_variable, i_set_variable, i_nullary, i_ft_get_supply,
    i_ft_get_balance, i_ft_burn, i_ft_mint, i_ft_transfer, i_nft_get_owner, i_nft_burn, i_nft_mint, i_nft_transfer,
    i_map_get, i_map_put, i_map_delete, i_principal;
  repeat (match goal with
  | |- sv_res _ (run_op _ _ _) => apply sv_run_op
  | |- sv_res _ (return_value _ _ _ _) => apply sv_return_value
  | |- sv_res _ (host_err _) => exact Hg
  | |- sv_res _ RStuck => exact Logic.I
  | |- sv_res _ (match op_nft_get_owner ?n ?t ?i ?g with _ => _ end) =>
      pose proof (sv_get_owner n t i g); destruct (op_nft_get_owner n t i g); cbn [sv] in *
  | |- sv_res _ (match ?x with _ => _ end) => destruct x
  | |- sv_res _ (RTrap _ _) => cbn [sv_res shost]; assumption
  | |- sv_res _ (RVals _ _) => cbn [sv_res shost]; assumption
  end).
  all: unfold op_define_variable, op_define_ft, op_define_nft, op_define_map, op_get_variable, op_set_variable,
    op_enter_as_contract, op_exit_as_contract, op_ft_get_supply, op_ft_get_balance, op_ft_burn, op_ft_mint,
    op_ft_transfer, op_nft_burn, op_nft_mint, op_nft_transfer, op_map_get, op_map_set, op_map_insert, op_map_delete.
  all: repeat sv_rule.
Qed.

(** a module whose imports are all from the modelled host, and whose code is well
    bracketed, is [bracketed] *)
Theorem bracketed_of E :
  (forall f fn, efun E f = Some fn -> well_bracketed (fbody fn) /\ savepoint f = false) ->
  (forall f, In f (etable E) -> savepoint f = false) ->
  (forall f, ehost E f = assoc f ledger_host) ->
  bracketed E.
Proof.
  intros Hf Ht Hh. split.
  - intros f fn Ef. exact (proj1 (Hf f fn Ef)).
  - exact Ht.
  - intros f Hs. split; [|apply Hh]. destruct (efun E f) as [fn|] eqn:Ef; [|reflexivity].
    destruct (Hf f fn Ef). congruence.
  - intros f ps h args st Hs He. rewrite Hh in He. exact (ledger_host_saves f ps h args st He Hs).
Qed.
