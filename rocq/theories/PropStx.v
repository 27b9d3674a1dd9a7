(** * Property theorems for the STX words: C69.

    The specification is [SpecStx.v]: it speaks of what principals hold, can spend and have
    locked, not of how the accounts are stored. *)
From Coq Require Import ZArith String List Bool Lia Arith.
Import ListNotations.
From Verif Require Import Wasm StdEnv WasmLogic Spec ZBits Clar Codec Rep RepFacts ReadProofs WriteProofs PropCodec
  Ledger Invar SpecLedger LedgerProofs PropLedger LangHost Stx SpecStx StxProofs.
Open Scope Z_scope.

(** the module imports [f] from the host *)
Definition imports_stx (E : env sctx) (f : string) : Prop := efun E f = None /\ ehost E f = assoc f stx_host.
Lemma stx_calls (E : env sctx) f ps h args st : imports_stx E f -> assoc f stx_host = Some (ps, h) -> calls E f args st (h args st).
Proof. intros [H1 H2] Hh. exists O. intros fu _. unfold invoke, call_func. rewrite H1, H2, Hh. reflexivity. Qed.
(** a memo, as the compiler passes it: at most 34 bytes in memory, or nothing at all *)
Definition memo_at (m : mem) (o l : Z) (memo : list Z) : Prop :=
  (l = 0 /\ memo = []) \/
  (memo <> [] /\ (length memo <= 34)%nat /\ l = Z.of_nat (length memo) /\ holds m o memo /\ msize m < 2 ^ 31).
Lemma read_memo_at m o l memo : memo_at m o l memo -> read_memo m o l = Some memo.
Proof.
  unfold read_memo. intros [(-> & ->)|(Hne & Hl & -> & Hh & Hm)]; [reflexivity|]. destruct (holds_small _ _ _ Hh Hm) as (E1 & E2). rewrite E1, E2.
  destruct (Z.ltb_spec 0 (Z.of_nat (length memo))) as [_|K]; [|destruct memo; [congruence|cbn in K; lia]].
  cbn [read_from_wasm]. rewrite (hread_holds _ _ _ Hh). unfold buff_from. destruct (_ <=? _) eqn:K; [reflexivity|]. apply Z.leb_gt in K. exfalso. assert (max_value_size = 1024 * 1024) by reflexivity. lia.
Qed.

(** ** Reading *)
Definition balance_type : ty := TUInt.
Definition account_type : ty := TTuple [("locked", TUInt); ("unlock-height", TUInt); ("unlocked", TUInt)]%string.
Definition account (lock h free : Z) : value := CTuple [("locked", CUInt lock); ("unlock-height", CUInt h); ("unlocked", CUInt free)]%string.

Lemma hold_small x p : stx_ok x -> holds_stx x p < 2 ^ 128.
Proof.
  intros Hok. destruct (so_all x Hok) as (ps & Hc & H1 & H2). destruct (covers_in x ps p Hc) as (ps1 & C1 & _ & P1 & S1).
  pose proof (in_all x ps1 p (fun q => hold_pos x q Hok) P1). lia.
Qed.
Lemma words_u n : 0 <= n < 2 ^ 128 -> u128_words n = [VI64 (n mod m64); VI64 (n / m64)].
Proof.
  intros H. unfold u128_words. rewrite (Z.mod_small (n / m64)); [reflexivity|].
  split; [apply Z.div_pos; [lia|reflexivity]|apply Z.div_lt_upper_bound; [reflexivity|change (m64 * m64) with (2 ^ 128); lia]].
Qed.
Lemma rep_words n m P : 0 <= n < 2 ^ 128 -> rep m P TUInt (CUInt n) (u128_words n).
Proof. intros H. rewrite words_u by exact H. apply rep_u. exact H. Qed.
Lemma spendable_range x p n : stx_ok x -> spendable x p n -> 0 <= n <= holds_stx x p.
Proof.
  intros Hok Hs. pose proof (sound_at x p Hok) as Sp. unfold holds_stx. destruct Hs as (H1 & H2), Sp as (S1 & S2 & _).
  destruct (ended_dec x (x_acct x p)) as [D|D]; [rewrite (H1 D)|rewrite (H2 D)]; lia.
Qed.

Section Words.
Variable E : env sctx.

(** [stx-get-balance] answers what the principal can spend, and changes nothing. *)
Theorem C69_balance : forall po pl p st n, imports_stx E "stdlib.stx_get_balance" -> stx_ok (shost st) -> prin_at (smem st) po pl p ->
  spendable (shost st) p n ->
  exists ws, calls E "stdlib.stx_get_balance" [VI32 po; VI32 pl] st (RVals ws st) /\ forall m P, rep m P balance_type (CUInt n) ws.
Proof.
  intros po pl p st n Hi Hok Hp Hn. pose proof (stx_calls E "stdlib.stx_get_balance" _ i_stx_balance [VI32 po; VI32 pl] st Hi eq_refl) as C.
  cbn [i_stx_balance] in C. rewrite (read_prin_at _ _ _ _ Hp) in C. unfold op_stx_balance, run_s in C.
  pose proof (spendable_range _ _ _ Hok Hn) as R. pose proof (hold_small (shost st) p Hok) as Hs.
  apply (spendable_is _ _ _ (sound_at _ p Hok)) in Hn. subst n. eexists. split; [destruct st; exact C|]. intros m P. apply rep_words. lia.
Qed.

(** [stx-account] answers what is locked, until when, and what is free; after the end of
    the lock nothing is locked and the height is 0. *)
Theorem C69_account : forall po pl p st, imports_stx E "stdlib.stx_account" -> stx_ok (shost st) -> prin_at (smem st) po pl p ->
  let x := shost st in
  exists ws lock h free, calls E "stdlib.stx_account" [VI32 po; VI32 pl] st (RVals ws st) /\
    (forall m P, rep m P account_type (account lock h free) ws) /\
    spendable x p free /\ lock + free = holds_stx x p /\
    (lock <> 0 -> ends_at x p h) /\ (lock_ended x (x_acct x p) -> lock = 0) /\
    (lock_ended x (x_acct x p) -> a_lock (x_acct x p) <> 0 -> h = 0).
Proof.
  intros po pl p st Hi Hok Hp x. pose proof (stx_calls E "stdlib.stx_account" _ i_stx_account [VI32 po; VI32 pl] st Hi eq_refl) as C.
  cbn [i_stx_account] in C. rewrite (read_prin_at _ _ _ _ Hp) in C. unfold op_stx_account, run_s in C. fold x in C.
  pose proof (sound_at x p Hok) as Sp. pose proof (hold_small x p Hok) as Hs. destruct (canonical_sound x _ Sp) as (K1 & K2 & K3).
  pose proof (so_heights x Hok) as Hh.
  set (a := canonical x (x_acct x p)) in *. assert (HU : 0 <= unlock_height x a < 2 ^ 64).
  { unfold unlock_height. destruct K1 as (_ & _ & _ & K1). destruct (a_pox a) as [|[|[|[|]]]]; lia. }
  exists (u128_words (a_lock a) ++ [VI64 (unlock_height x a mod m64); VI64 0] ++ u128_words (a_free a)), (a_lock a), (unlock_height x a), (a_free a).
  unfold holds_stx in *. split; [destruct st; exact C|]. split.
  { intros m P. cbn [account_type account rep]. pose proof K1 as (F1 & F2 & _).
    exists (u128_words (a_lock a)), ([VI64 (unlock_height x a mod m64); VI64 0] ++ u128_words (a_free a)). split; [reflexivity|]. split; [reflexivity|]. split; [apply (rep_words _ m P); lia|].
    exists [VI64 (unlock_height x a mod m64); VI64 0], (u128_words (a_free a)). split; [reflexivity|]. split; [reflexivity|]. split.
    - change (2 ^ 64) with m64. rewrite (Z.div_small (unlock_height x a)) by exact HU. reflexivity.
    - exists (u128_words (a_free a)), []. split; [reflexivity|]. split; [rewrite app_nil_r; reflexivity|]. split; [apply (rep_words _ m P); lia|reflexivity]. }
  split; [apply (spendable_is _ _ _ Sp); reflexivity|]. split; [lia|].
  unfold a, canonical. destruct (unlockable x (x_acct x p)) eqn:U; cbn [a_lock].
  - split; [congruence|]. split; [reflexivity|]. reflexivity.
  - unfold unlockable in U. unfold ends_at. cbv zeta. set (b := x_acct x p) in *. clearbody b. clear C a K1 K2 K3 HU. destruct Sp as (_ & _ & S0 & _).
    destruct (Nat.eq_dec (a_pox b) 0) as [Hz|Hz].
    { specialize (S0 Hz). rewrite S0. split; [congruence|]. split; [reflexivity|]. congruence. }
    assert (U' : negb (a_lock b =? 0) && (unlock_height x b <=? x_height x) = false) by (destruct (a_pox b); [congruence|exact U]). clear U.
    destruct (Z.eqb_spec (a_lock b) 0) as [Hl|Hl]; [rewrite Hl; split; [congruence|split; [reflexivity|congruence]]|]. cbn in U'. apply Z.leb_gt in U'.
    assert (NE : ~ lock_ended x b) by (intros K; apply (ended_iff x b Hz) in K; lia).
    split; [intros _|split; intros K; contradiction].
    unfold unlock_height in U' |- *. destruct (a_pox b) as [|[|[|[|]]]]; [congruence|..]; (split; [lia|]); (split; [|exact U']); try lia.
Qed.

(** ** Writing *)
(** the state after a call that returned, and its answer *)
Definition answered (st : store sctx) (r : result sctx) (answers : value -> Prop) (e : stx_event) : Prop :=
  exists ws st' ans, r = RVals ws st' /\ smem st' = smem st /\ sglob st' = sglob st /\ stx_ok (shost st') /\
    answers ans /\ (forall m P, rep m P (TResp TBool TUInt) ans ws) /\
    ((ans = COk (CBool true) /\ happened (shost st) (shost st') e) \/ ((exists c, ans = CErr c) /\ nothing (shost st) (shost st'))).

Lemma answered_of (st : store sctx) ws x' (A : value -> Prop) e : (exists ans, A ans /\ stx_ok x' /\ did_stx (shost st) x' ws ans e) ->
  answered st (run_s st (SOk ws x')) A e.
Proof.
  intros (ans & HA & Hok & [(-> & -> & Hh)|(c & Hc & -> & -> & Hn)]).
  - eexists _, _, _. split; [reflexivity|]. split; [reflexivity|]. split; [reflexivity|]. split; [exact Hok|]. split; [exact HA|]. split; [intros m P; apply rep_okb|]. left. auto.
  - eexists _, _, _. split; [reflexivity|]. split; [reflexivity|]. split; [reflexivity|]. split; [exact Hok|]. split; [exact HA|]. split.
    + intros m P. cbn [rep]. exists [VI32 0], [VI64 c; VI64 0]. split; [reflexivity|]. split; [repeat constructor; cbn; lia|]. rewrite (Z.mod_small c), Z.div_small by lia. reflexivity.
    + right. eauto.
Qed.

(** [stx-transfer?], [stx-transfer-memo?]: the answer is the one Clarity prescribes; [(ok
    true)] exactly when the event has happened and an error exactly when nothing has.  It
    only fails, and then for the whole transaction, when the memory budget or the running
    total of the sender's transfers gives out. *)
Theorem C69_transfer : forall amt p q memo po pl qo ql mo ml st, imports_stx E "stdlib.stx_transfer" -> stx_ok (shost st) ->
  prin_at (smem st) po pl p -> prin_at (smem st) qo ql q -> memo_at (smem st) mo ml memo -> is_u128 amt ->
  let x := shost st in
  exists r, calls E "stdlib.stx_transfer" (u128 amt ++ [VI32 po; VI32 pl; VI32 qo; VI32 ql; VI32 mo; VI32 ml]) st r /\
    (answered st r (answers_transfer x amt p q) (EvSend p q amt memo) \/
     ((exists st', r = RTrap THost st') /\ amt <> 0 /\ p <> q /\ x_sender x = Some p /\ (x_memory x < 376 \/ 2 ^ 128 <= x_sent x p + amt))).
Proof.
  intros amt p q memo po pl qo ql mo ml st Hi Hok Hp Hq Hm Ha x.
  pose proof (stx_calls E "stdlib.stx_transfer" _ i_stx_transfer (u128 amt ++ [VI32 po; VI32 pl; VI32 qo; VI32 ql; VI32 mo; VI32 ml]) st Hi eq_refl) as C.
  unfold u128 in C |- *. cbn [app i_stx_transfer] in C |- *. rewrite (read_prin_at _ _ _ _ Hp), (read_prin_at _ _ _ _ Hq), (read_memo_at _ _ _ _ Hm), (amount_u128 amt Ha) in C.
  eexists. split; [exact C|]. pose proof (op_transfer_spec (shost st) amt p q memo Hok Ha) as S. destruct (op_stx_transfer amt p q memo (shost st)) as [ws x'|x'].
  - left. apply answered_of. exact S.
  - right. split; [eexists; reflexivity|exact S].
Qed.

Theorem C69_burn : forall amt p po pl st, imports_stx E "stdlib.stx_burn" -> stx_ok (shost st) -> prin_at (smem st) po pl p -> is_u128 amt ->
  let x := shost st in
  exists r, calls E "stdlib.stx_burn" (u128 amt ++ [VI32 po; VI32 pl]) st r /\
    (answered st r (answers_burn x amt p) (EvBurn p amt) \/
     ((exists st', r = RTrap THost st') /\ amt <> 0 /\ x_sender x = Some p /\ (x_memory x < 188 \/ 2 ^ 128 <= x_burned x p + amt))).
Proof.
  intros amt p po pl st Hi Hok Hp Ha x.
  pose proof (stx_calls E "stdlib.stx_burn" _ i_stx_burn (u128 amt ++ [VI32 po; VI32 pl]) st Hi eq_refl) as C.
  unfold u128 in C |- *. cbn [app i_stx_burn] in C |- *. rewrite (read_prin_at _ _ _ _ Hp), (amount_u128 amt Ha) in C.
  eexists. split; [exact C|]. pose proof (op_burn_spec (shost st) amt p Hok Ha) as S. destruct (op_stx_burn amt p (shost st)) as [ws x'|x'].
  - left. apply answered_of. exact S.
  - right. split; [eexists; reflexivity|exact S].
Qed.
End Words.
Print Assumptions C69_balance.
Print Assumptions C69_account.
Print Assumptions C69_transfer.
Print Assumptions C69_burn.

(** ** Histories *)
(** every import is one of the modelled STX functions, or does to STX only what a history
    of events does (a contract call, say, whatever the other contract is) *)
Definition orderly (h : list val -> store sctx -> result sctx) : Prop := forall args st, stx_ok (shost st) ->
  match h args st with RVals _ st' => stx_ok (shost st') /\ exists es, stx_history (shost st) es (shost st') | _ => True end.
Definition stx_module (E : env sctx) : Prop := forall n ps h, ehost E n = Some (ps, h) -> assoc n stx_host = Some (ps, h) \/ orderly h.

Lemma stx_history_app x es y es' z : stx_history x es y -> stx_history y es' z -> stx_history x (es' ++ es) z.
Proof. intros H1. induction 1; [exact H1|eapply sh_event; eauto|eapply sh_other; eauto]. Qed.
Lemma quiet_history x m : stx_history x [] (x_with_memory x m).
Proof. eapply sh_other; [apply sh_none|reflexivity..]. Qed.
Lemma did_history x x' ws ans e : did_stx x x' ws ans e -> exists es, stx_history x es x'.
Proof.
  intros [(_ & _ & H)|(c & _ & _ & _ & (m & ->))]; [exists [e]; eapply sh_event; [apply sh_none|exact H]|exists []; apply quiet_history].
Qed.
Lemma amount_range lo hi : 0 <= amount lo hi < 2 ^ 128.
Proof.
  unfold amount. pose proof (Z.mod_pos_bound lo m64 ltac:(reflexivity)). pose proof (Z.mod_pos_bound hi m64 ltac:(reflexivity)). change (2 ^ 128) with (m64 * m64). nia.
Qed.
Ltac host_args := repeat match goal with |- match (match ?a with _ => _ end) with _ => _ end => destruct a; try exact I end.
Lemma host_orderly n ps h : assoc n stx_host = Some (ps, h) -> orderly h.
Proof.
  cbn [stx_host assoc]. intros Hn args st Hok.
  repeat match type of Hn with (if ?b then _ else _) = _ => destruct b; [injection Hn as <- <-|] end; [..|discriminate Hn].
  - unfold i_stx_balance. host_args. cbn [shost]. split; [exact Hok|]. exists []. apply sh_none.
  - unfold i_stx_account. host_args. cbn [shost]. split; [exact Hok|]. exists []. apply sh_none.
  - unfold i_stx_burn. destruct args as [|[|lo|] [|[|hi|] [|[po| |] [|[pl| |] [|]]]]]; try exact I. destruct (read_prin _ _ _) as [p|]; [|exact I].
    pose proof (op_burn_spec (shost st) (amount lo hi) p Hok (amount_range lo hi)) as K. destruct (op_stx_burn _ _ _) as [ws x'|x']; [|exact I].
    destruct K as (ans & _ & K1 & K2). split; [exact K1|]. eapply did_history; exact K2.
  - unfold i_stx_transfer. destruct args as [|[|lo|] [|[|hi|] [|[po| |] [|[pl| |] [|[qo| |] [|[ql| |] [|[mo| |] [|[ml| |] [|]]]]]]]]]; try exact I.
    destruct (read_prin _ po _) as [p|]; [|exact I]. destruct (read_prin _ qo _) as [q|]; [|exact I]. destruct (read_memo _ _ _) as [memo|]; [|exact I].
    pose proof (op_transfer_spec (shost st) (amount lo hi) p q memo Hok (amount_range lo hi)) as K. destruct (op_stx_transfer _ _ _ _ _) as [ws x'|x']; [|exact I].
    destruct K as (ans & _ & K1 & K2). split; [exact K1|]. eapply did_history; exact K2.
Qed.

(** Whatever code runs, with whatever arguments, memory and globals: when it returns, the
    STX have only seen a history of events, and the state is still one the chain can be in. *)
Theorem C69_every_call_is_a_history : forall E f args m gl x vs st, stx_module E -> stx_ok x ->
  calls E f args (mkstore m gl x) (RVals vs st) ->
  stx_ok (shost st) /\ exists es, stx_history x es (shost st).
Proof.
  intros E f args m gl x vs st HE Hok [f0 Hc]. set (I := fun y => stx_ok y /\ exists es, stx_history x es y).
  assert (HK : forall n ps h args (st : store sctx), ehost E n = Some (ps, h) -> I (shost st) -> keeps_r I (fun _ => True) (h args st)).
  { intros n ps h args' st' Hh (I1 & es & I2). assert (O : orderly h) by (destruct (HE n ps h Hh) as [K|K]; [eapply host_orderly; exact K|exact K]).
    specialize (O args' st' I1). destruct (h args' st') as [ws st2| | |]; cbn; auto. destruct O as (O1 & es' & O2). split; [exact O1|]. exists (es' ++ es). eapply stx_history_app; eassumption. }
  pose proof (invoke_inv E I (fun _ => True) (fun _ _ => Logic.I) HK f0 f args (mkstore m gl x)) as K.
  rewrite (Hc f0 (le_n _)) in K. apply K. split; [exact Hok|]. exists []. apply sh_none.
Qed.
Print Assumptions C69_every_call_is_a_history.

(** Over a history, what everyone holds changes by exactly what the announced events say;
    the liquid supply falls by what was burnt; and what all hold together falls by the same. *)
Theorem C69_holdings_are_announced : forall x es x', stx_history x es x' ->
  x_events x' = es ++ x_events x /\
  (forall p, holds_stx x' p = holds_stx x p + sum (fun e => delta e p) es) /\
  x_liquid x' = x_liquid x - sum burnt es /\
  (forall ps, covers x ps -> exists ps', covers x' ps' /\ incl ps ps' /\ all_stx x' ps' = all_stx x ps - sum burnt es).
Proof.
  induction 1 as [x|x es y y' e H (I0 & I1 & I2 & I3) He|x es y y' H (I0 & I1 & I2 & I3) H1 H2 H3].
  - cbn. split; [reflexivity|]. split; [intros; lia|]. split; [lia|]. intros ps Hc. exists ps. split; [exact Hc|]. split; [apply incl_refl|lia].
  - split; [rewrite (ha_events _ _ _ He), I0; reflexivity|]. split; [|split].
    + intros p. rewrite (ha_hold _ _ _ He p), I1. cbn [sum fold_right]. fold (sum (fun e => delta e p) es). lia.
    + rewrite (ha_liquid _ _ _ He), I2. cbn [sum fold_right]. fold (sum burnt es). lia.
    + intros ps Hc. destruct (I3 ps Hc) as (ps1 & C1 & L1 & S1). destruct (covers_after _ _ _ _ He C1) as (ps2 & C2 & L2 & S2). exists ps2. split; [exact C2|]. split; [eapply incl_tran; eassumption|].
      rewrite S2, S1. cbn [sum fold_right]. fold (sum burnt es). lia.
  - split; [congruence|]. split; [intros p; rewrite H1; apply I1|]. split; [congruence|]. intros ps Hc. destruct (I3 ps Hc) as (ps1 & C1 & L1 & S1). exists ps1. split; [|split; [exact L1|]].
    + split; [apply C1|]. intros p Hp. rewrite H1. apply C1. exact Hp.
    + rewrite <- S1. clear - H1. induction ps1 as [|p l IH]; [reflexivity|]. rewrite !all_cons, H1, IH. reflexivity.
Qed.
Print Assumptions C69_holdings_are_announced.

(** Nobody is debited without being the payer of an announced event, and whoever pays was
    the transaction's sender, as the words see it, when the event happened. *)
Theorem C69_only_payers_are_debited : forall x es x' p, stx_history x es x' ->
  holds_stx x' p < holds_stx x p -> exists e, In e es /\ payer e = p /\ 0 < amount_of e.
Proof.
  intros x es x' p H. induction H as [x|x es y y' e H IH He|x es y y' H IH H1 H2 H3]; intros Hlt; [lia| |rewrite H1 in Hlt; auto].
  destruct (Z_lt_le_dec (holds_stx y p) (holds_stx x p)) as [D|D]; [destruct (IH D) as (e' & K & K'); exists e'; split; [right; exact K|exact K']|].
  pose proof (ha_payer _ _ _ He) as (_ & Hpos). rewrite (ha_hold _ _ _ He p) in Hlt. exists e. split; [left; reflexivity|]. split; [|exact Hpos].
  destruct e as [q n|q r n memo]; cbn [delta payer amount_of] in *; destruct (prin_eq_dec p q) as [->|]; try reflexivity; [lia|destruct (prin_eq_dec p r); lia].
Qed.
Theorem C69_payers_were_the_sender : forall x es x', stx_history x es x' ->
  forall e, In e es -> exists es1 es2 y, es = es1 ++ e :: es2 /\ stx_history x es2 y /\ x_sender y = Some (payer e).
Proof.
  induction 1 as [x|x es y y' e H IH He|x es y y' H IH H1 H2 H3]; intros e0 Hin; [contradiction| |exact (IH e0 Hin)].
  destruct Hin as [<-|Hin]; [exists [], es, y; split; [reflexivity|]; split; [exact H|apply (ha_payer _ _ _ He)]|].
  destruct (IH e0 Hin) as (es1 & es2 & z & -> & K). exists (e :: es1), es2, z. split; [reflexivity|exact K].
Qed.
Print Assumptions C69_only_payers_are_debited.
Print Assumptions C69_payers_were_the_sender.

(** What moves was spendable: locked STX stay where they are. *)
Theorem C69_locked_stx_stay : forall x x' e n, stx_ok x' -> happened x x' e -> spendable x (payer e) n ->
  (match e with EvSend q r _ _ => q <> r | _ => True end) -> amount_of e <= n.
Proof.
  intros x x' e n Hok He Hs Hne. pose proof (ha_spend _ _ _ He _ _ Hs) as K. apply (spendable_range _ _ _ Hok) in K.
  destruct e as [q k|q r k memo]; cbn [delta payer amount_of] in *; repeat (destruct (prin_eq_dec _ _)); congruence || lia.
Qed.
Print Assumptions C69_locked_stx_stay.

(** ** The compiled words *)
(** the code of a word calls the host function on its operands, followed by [extra] *)
Definition is_call (E : env sctx) (c : list instr) (f : string) (np : nat) (extra : list val) : Prop := forall args st r ls k,
  length args = np -> calls E f (args ++ extra) st r ->
  runs E c (mkcfg ls (rev args ++ k) st)
    (match r with RVals ws st' => ONormal (mkcfg ls (rev ws ++ k) st') | RTrap t st' => OTrap t st' | RFuel => OFuel | RStuck => OStuck end).
Lemma call_word (E : env sctx) f n : fun_arity E f = Some n -> is_call E [Call f] f n [].
Proof.
  intros Ha args st r ls k Hl C. rewrite app_nil_r in C. apply wp_runs.
  assert (HL : length (rev args) = n) by (rewrite rev_length; exact Hl).
  eapply wp_call; [exact Ha|]. cbn [cstack clocals cstore]. rewrite firstn_app, skipn_app, HL, Nat.sub_diag, firstn_O, app_nil_r.
  rewrite <- HL at 1. rewrite firstn_all. rewrite <- HL. rewrite skipn_all, rev_involutive. eapply calls_wpf; [exact C|]. unfold qcall. destruct r; cbn; try reflexivity.
  apply wp_nil. reflexivity.
Qed.
Theorem C69_words : forall E, (forall f, In f (map fst stx_host) -> imports_stx E f) ->
  is_call E c_stx_balance "stdlib.stx_get_balance" 2 [] /\
  is_call E c_stx_account "stdlib.stx_account" 2 [] /\
  is_call E c_stx_burn "stdlib.stx_burn" 4 [] /\
  is_call E c_stx_transfer_memo "stdlib.stx_transfer" 8 [] /\
  is_call E c_stx_transfer "stdlib.stx_transfer" 6 [VI32 0; VI32 0].
Proof.
  intros E Hi. assert (HA : forall f ps h, In f (map fst stx_host) -> assoc f stx_host = Some (ps, h) -> fun_arity E f = Some (length ps)).
  { intros f ps h Hf Hs. destruct (Hi f Hf) as (H1 & H2). unfold fun_arity. rewrite H1, H2, Hs. reflexivity. }
  split; [|split; [|split; [|split]]].
  - apply call_word. eapply (HA _ (repeat T32 2) i_stx_balance); [cbn; auto|reflexivity].
  - apply call_word. eapply (HA _ (repeat T32 2) i_stx_account); [cbn; auto|reflexivity].
  - apply call_word. eapply (HA _ [T64; T64; T32; T32] i_stx_burn); [cbn; auto|reflexivity].
  - apply call_word. eapply (HA _ (T64 :: T64 :: repeat T32 6) i_stx_transfer); [cbn; auto|reflexivity].
  - assert (K : is_call E [Call "stdlib.stx_transfer"] "stdlib.stx_transfer" 8 []) by (apply call_word; eapply (HA _ (T64 :: T64 :: repeat T32 6) i_stx_transfer); [cbn; auto 6|reflexivity]).
    intros args st r ls k Hl C. specialize (K (args ++ [VI32 0; VI32 0]) st r ls k). rewrite app_nil_r, app_length, Hl in K. specialize (K eq_refl C).
    rewrite rev_app_distr in K. cbn [rev app] in K. apply wp_runs. unfold c_stx_transfer.
    eapply wp_step1; [reflexivity|reflexivity|]. eapply wp_step1; [reflexivity|reflexivity|]. eapply runs_wp; [exact K|]. destruct r; reflexivity.
Qed.
Print Assumptions C69_words.

(** ** Examples *)
(** alice holds 100 STX, 60 of them locked (version 2) until block 50 at the latest; bob
    has none *)
Definition x0 (height v2 : Z) : sctx :=
  mkx (Some alice) 1000 (pupd (fun _ => mkacct 0 0 0 0) alice (mkacct 40 60 50 2)) 500 height 0 v2 0 (fun _ => 0) (fun _ => 0) [].
Definition xst (height v2 : Z) : store sctx := mkstore m0 [] (x0 height v2).
Definition XE : env sctx := mkenv (fun _ => None) (fun f => assoc f stx_host) [].
Example x0_ok h v : 0 <= v < 2 ^ 32 -> stx_ok (x0 h v).
Proof.
  intros Hv. split; [|cbn; lia|].
  - intros p. cbn [x0 x_acct]. unfold pupd. destruct (prin_eq_dec p alice); cbn; (split; [lia|]); (split; [lia|]); (split; [congruence || reflexivity|lia]).
  - exists [alice]. split; [split; [repeat constructor; cbn; tauto|]|].
    + intros p Hp. cbn [In] in Hp. unfold holds_stx. cbn [x0 x_acct]. unfold pupd. destruct (prin_eq_dec p alice); [exfalso; auto|reflexivity].
    + split; [vm_compute; discriminate|vm_compute; reflexivity].
Qed.
Example XE_module : stx_module XE. Proof. intros n ps h Hh. left. exact Hh. Qed.
Example XE_imports f : In f (map fst stx_host) -> imports_stx XE f. Proof. intros _. split; reflexivity. Qed.
(** at block 20 alice can spend 40; when the old locks end at 20, or at block 50, all of it *)
Example spend_locked : spendable (x0 20 30) alice 40 /\ spendable (x0 20 20) alice 100 /\ spendable (x0 50 60) alice 100.
Proof. unfold spendable, lock_ended; cbn [x0 x_acct]; rewrite !pupd_same; cbn; lia. Qed.
Definition memo1 : list Z := [7].
Example memo_example : memo_at m0 300 1 memo1 /\ memo_at m0 0 0 [].
Proof.
  split; [right|left; auto]. split; [discriminate|]. split; [cbn; lia|]. split; [reflexivity|]. split; [|reflexivity].
  split; [lia|]. split; [cbn; lia|vm_compute; reflexivity].
Qed.
Definition send (amt h v2 : Z) := invoke XE 3 "stdlib.stx_transfer" (u128 amt ++ [VI32 100; VI32 22; VI32 200; VI32 22; VI32 300; VI32 1]) (xst h v2).
(** alice sends 30 to bob .. *)
Example send30 : match send 30 20 30 with
  | RVals ws st => (ws, x_acct (shost st) alice, a_free (x_acct (shost st) bob), x_events (shost st)) = (ok_true, mkacct 10 60 50 2, 30, [EvSend alice bob 30 memo1])
  | _ => False end.
Proof. vm_compute. reflexivity. Qed.
(** .. cannot send 41 while 60 are locked .. *)
Example send41 : match send 41 20 30 with RVals ws st => (ws, x_events (shost st)) = (err_code 1, []) | _ => False end.
Proof. vm_compute. reflexivity. Qed.
(** .. and can after the lock. *)
Example send41_later : match send 41 20 20 with
  | RVals ws st => (ws, x_acct (shost st) alice, a_free (x_acct (shost st) bob)) = (ok_true, mkacct 59 0 0 0, 41)
  | _ => False end.
Proof. vm_compute. reflexivity. Qed.
Example burn_not_sender : match invoke XE 3 "stdlib.stx_burn" (u128 1 ++ [VI32 200; VI32 22]) (xst 20 30) with RVals ws _ => ws = err_code 4 | _ => False end.
Proof. vm_compute. reflexivity. Qed.
Example account_alice : match invoke XE 3 "stdlib.stx_account" [VI32 100; VI32 22] (xst 20 30) with
  | RVals ws _ => ws = [VI64 60; VI64 0; VI64 30; VI64 0; VI64 40; VI64 0] | _ => False end.
Proof. vm_compute. reflexivity. Qed.
