(** * Property theorems for data variables, data maps, at-block and read-only contexts: C51, C52, C53. *)
From Coq Require Import ZArith String List Bool Lia Arith.
Import ListNotations.
From Verif Require Import Wasm StdEnv WasmLogic Spec ZBits Mem MemFacts Clar Codec Rep RepFacts ReadProofs WriteProofs PropCodec
  Ledger Invar SpecLedger LedgerProofs Calls CallProofs HostSaves PropLedger.
Open Scope Z_scope.

(** ** Independent description of a store of variables and maps *)

(** [d'] is [d] except that variable [n] is [v] *)
Record var_written (d d' : db) (n : name) (v : value) : Prop := {
  vw_here : d_var d' n = Some v;
  vw_vars : forall n', n' <> n -> d_var d' n' = d_var d n';
  vw_maps : forall n' k', d_map d' n' k' = d_map d n' k';
  vw_rest : d_supply d' = d_supply d /\ d_bal d' = d_bal d /\ d_owner d' = d_owner d /\ d_events d' = d_events d }.
(** [d'] is [d] except that entry [k] of map [n] is [o] ([None]: there is none) *)
Record map_written (d d' : db) (n : name) (k : value) (o : option value) : Prop := {
  mw_here : d_map d' n k = o;
  mw_keys : forall k', k' <> k -> d_map d' n k' = d_map d n k';
  mw_maps : forall n' k', n' <> n -> d_map d' n' k' = d_map d n' k';
  mw_rest : d_var d' = d_var d /\ d_supply d' = d_supply d /\ d_bal d' = d_bal d /\ d_owner d' = d_owner d /\ d_events d' = d_events d }.

(** the tables became [d'], [cost] of the memory budget was spent, nothing else changed *)
Definition stored (st : store gctx) (d' : db) (cost : Z) (st' : store gctx) : Prop :=
  st' = mkstore (smem st) (sglob st) (g_with_memory (g_with_db (shost st) d') (g_memory (shost st) - cost)).

Lemma set_map_written d n k o : map_written d (set_map d n k o) n k o.
Proof.
  split; cbn; auto 6.
  - unfold nupd, vupd. destruct (name_eq_dec n n); [|congruence]. destruct (value_eq_dec k k); congruence.
  - intros k' Hk. unfold nupd, vupd. destruct (name_eq_dec n n); [|congruence]. destruct (value_eq_dec k' k); congruence.
  - intros n' k' Hn. unfold nupd. destruct (name_eq_dec n' n); congruence.
Qed.
Lemma set_var_written d n v : var_written d (set_var d n v) n v.
Proof.
  split; cbn; auto 6.
  - unfold nupd. destruct (name_eq_dec n n); congruence.
  - intros n' Hn. unfold nupd. destruct (name_eq_dec n' n); congruence.
Qed.

Section Ops.
Variable E : env gctx.

Ltac sopen C := unfold op_map_get, op_map_set, op_map_insert, op_map_delete, op_get_variable, op_set_variable, reading, cur, hbind, hget, hopt, hret,
    hfail, hguard, db_mod, hmod, add_memory, run_op in C.

Lemma map_args_at st no nl n ko kl kt vt k : name_at (smem st) no nl n -> g_maps (shost st) n = Some (kt, vt) ->
  value_at (smem st) ko kl kt k -> map_args st no nl ko kl = Some (n, kt, vt, k).
Proof. intros Hn Ht Hv. unfold map_args. rewrite (read_name_at _ _ _ _ Hn), Ht. cbn [fst snd]. rewrite (read_arg_at _ _ _ _ _ Hv). reflexivity. Qed.

Definition entry_cost (k v : value) : Z := ser_size k + ser_size v.

Lemma with_memory_0 st : mkstore (smem st) (sglob st) (g_with_memory (shost st) (g_memory (shost st))) = st.
Proof. destruct st as [m gl []]. reflexivity. Qed.

(** [map-set] makes the entry the value and returns true. *)
Theorem C51_map_set : forall no nl n ko kl k vo vl v kt vt st,
  imports E "stdlib.map_set" -> name_at (smem st) no nl n -> g_maps (shost st) n = Some (kt, vt) ->
  value_at (smem st) ko kl kt k -> value_at (smem st) vo vl vt v -> is_read_only (shost st) = false ->
  let args := [VI32 no; VI32 nl; VI32 ko; VI32 kl; VI32 vo; VI32 vl] in
  (entry_cost k v <= g_memory (shost st) ->
     exists d' st', calls E "stdlib.map_set" args st (RVals [VI32 1] st') /\ stored st d' (entry_cost k v) st' /\
       map_written (g_db (shost st)) d' n k (Some v)) /\
  (g_memory (shost st) < entry_cost k v -> fails E "stdlib.map_set" args st).
Proof.
  intros no nl n ko kl k vo vl v kt vt st Hi Hn Ht Hk Hv Hr args.
  pose proof (host_calls E "stdlib.map_set" _ (i_map_put op_map_set) args st Hi eq_refl) as C. unfold args in C. cbn [i_map_put] in C. fold args in C.
  rewrite Hr, (map_args_at _ _ _ _ _ _ _ _ _ Hn Ht Hk), (read_arg_at _ _ _ _ _ Hv) in C. sopen C.
  destruct Hk as (_ & Hk & _). destruct Hv as (_ & Hv & _). rewrite (admits_typed _ _ Hk), (admits_typed _ _ Hv) in C. cbn iota in C. gs C.
  unfold entry_cost, fails. split; intros Hm.
  - destruct (Z.leb_spec (ser_size k + ser_size v) (g_memory (shost st))) as [_|]; [|lia]. gs C.
    eexists _, _. split; [exact C|]. split; [reflexivity|apply set_map_written].
  - destruct (Z.leb_spec (ser_size k + ser_size v) (g_memory (shost st))) as [|_]; [lia|]. eexists. exact C.
Qed.

(** [map-insert] does the same when the key has no entry; otherwise it returns
    false and writes nothing. *)
Theorem C51_map_insert : forall no nl n ko kl k vo vl v kt vt st,
  imports E "stdlib.map_insert" -> name_at (smem st) no nl n -> g_maps (shost st) n = Some (kt, vt) ->
  value_at (smem st) ko kl kt k -> value_at (smem st) vo vl vt v -> is_read_only (shost st) = false -> g_view (shost st) = None ->
  let args := [VI32 no; VI32 nl; VI32 ko; VI32 kl; VI32 vo; VI32 vl] in
  (entry_cost k v <= g_memory (shost st) -> d_map (g_db (shost st)) n k = None ->
     exists d' st', calls E "stdlib.map_insert" args st (RVals [VI32 1] st') /\ stored st d' (entry_cost k v) st' /\
       map_written (g_db (shost st)) d' n k (Some v)) /\
  (entry_cost k v <= g_memory (shost st) -> d_map (g_db (shost st)) n k <> None ->
     exists st', calls E "stdlib.map_insert" args st (RVals [VI32 0] st') /\ stored st (g_db (shost st)) (entry_cost k v) st') /\
  (g_memory (shost st) < entry_cost k v -> fails E "stdlib.map_insert" args st).
Proof.
  intros no nl n ko kl k vo vl v kt vt st Hi Hn Ht Hk Hv Hr Hw args.
  pose proof (host_calls E "stdlib.map_insert" _ (i_map_put op_map_insert) args st Hi eq_refl) as C. unfold args in C. cbn [i_map_put] in C. fold args in C.
  rewrite Hr, (map_args_at _ _ _ _ _ _ _ _ _ Hn Ht Hk), (read_arg_at _ _ _ _ _ Hv) in C. sopen C.
  destruct Hk as (_ & Hk & _). destruct Hv as (_ & Hv & _). rewrite (admits_typed _ _ Hk), (admits_typed _ _ Hv), Hw in C. cbn iota in C.
  unfold entry_cost, fails. split; [|split].
  - intros Hm Ho. rewrite Ho in C. gs C. destruct (Z.leb_spec (ser_size k + ser_size v) (g_memory (shost st))) as [_|]; [|lia]. gs C.
    eexists _, _. split; [exact C|]. split; [reflexivity|apply set_map_written].
  - intros Hm Ho. destruct (d_map (g_db (shost st)) n k); [|congruence]. gs C.
    destruct (Z.leb_spec (ser_size k + ser_size v) (g_memory (shost st))) as [_|]; [|lia].
    eexists. split; [exact C|]. unfold stored. destruct (shost st); reflexivity.
  - intros Hm. destruct (d_map (g_db (shost st)) n k); gs C;
    (destruct (Z.leb_spec (ser_size k + ser_size v) (g_memory (shost st))) as [|_]; [lia|]); eexists; exact C.
Qed.

(** [map-delete] removes the entry and returns true, or returns false when there is none. *)
Theorem C51_map_delete : forall no nl n ko kl k kt vt st,
  imports E "stdlib.map_delete" -> name_at (smem st) no nl n -> g_maps (shost st) n = Some (kt, vt) ->
  value_at (smem st) ko kl kt k -> is_read_only (shost st) = false -> g_view (shost st) = None ->
  let args := [VI32 no; VI32 nl; VI32 ko; VI32 kl] in
  (ser_size k <= g_memory (shost st) -> d_map (g_db (shost st)) n k <> None ->
     exists d' st', calls E "stdlib.map_delete" args st (RVals [VI32 1] st') /\ stored st d' (ser_size k) st' /\
       map_written (g_db (shost st)) d' n k None) /\
  (ser_size k <= g_memory (shost st) -> d_map (g_db (shost st)) n k = None ->
     exists st', calls E "stdlib.map_delete" args st (RVals [VI32 0] st') /\ stored st (g_db (shost st)) (ser_size k) st') /\
  (g_memory (shost st) < ser_size k -> fails E "stdlib.map_delete" args st).
Proof.
  intros no nl n ko kl k kt vt st Hi Hn Ht Hk Hr Hw args.
  pose proof (host_calls E "stdlib.map_delete" _ i_map_delete args st Hi eq_refl) as C. unfold args in C. cbn [i_map_delete] in C. fold args in C.
  rewrite Hr, (map_args_at _ _ _ _ _ _ _ _ _ Hn Ht Hk) in C. sopen C.
  destruct Hk as (_ & Hk & _). rewrite (admits_typed _ _ Hk), Hw in C. cbn iota in C.
  unfold fails. split; [|split].
  - intros Hm Ho. destruct (d_map (g_db (shost st)) n k); [|congruence]. gs C.
    destruct (Z.leb_spec (ser_size k) (g_memory (shost st))) as [_|]; [|lia]. gs C.
    eexists _, _. split; [exact C|]. split; [reflexivity|apply set_map_written].
  - intros Hm Ho. rewrite Ho in C. gs C. destruct (Z.leb_spec (ser_size k) (g_memory (shost st))) as [_|]; [|lia].
    eexists. split; [exact C|]. unfold stored. destruct (shost st); reflexivity.
  - intros Hm. destruct (d_map (g_db (shost st)) n k); gs C;
    (destruct (Z.leb_spec (ser_size k) (g_memory (shost st))) as [|_]; [lia|]); eexists; exact C.
Qed.

(** [map-get?] leaves at the return offset some of the entry, or none: the words of
    the value at the offset, the rest of it right after them; nothing else in
    memory, and nothing of the chain, changes. *)
Definition returned (st st' : store gctx) (ro : Z) (t : ty) (v : value) : Prop :=
  sglob st' = sglob st /\ shost st' = shost st /\
  unchanged_outside (smem st) (smem st') ro (get_type_size t) (ro + get_type_size t) (max_payload t) /\
  exists ws P, words_at (smem st') ro ws /\ rep (smem st') P t v ws.

Lemma return_ok st t v ro : ty_ok t -> no_trait t -> has_type t v -> msize (smem st) < 2 ^ 31 -> 0 <= ro ->
  ro + get_type_size t + max_payload t <= msize (smem st) ->
  exists st', return_value st t ro (HOk v (shost st)) = RVals [] st' /\ returned st st' ro t v.
Proof.
  intros Hok Hnt Ht Hm H0 H1. pose proof (payload_bound t Hok v Ht) as Hb. pose proof (words_size_nonneg (clar2wasm_ty t)) as Hs. rewrite words_size_ty in Hs. unfold max_payload in H1.
  assert (Hp : 0 <= payload t v) by (apply payload_nonneg).
  assert (sgn32 ro = ro) as Hro by (apply sgn32_small; change (2 ^ 31) with h32 in Hm; lia).
  destruct (write_good t v (smem st) ro (ro + get_type_size t) Hok Hnt Ht Hm) as (Hp' & m' & ws & Ew & (S1 & R1) & Hw & Hr); unfold max_payload, apart in *; try lia.
  unfold return_value. rewrite Hro, Ew. eexists. split; [reflexivity|]. split; [reflexivity|]. split; [reflexivity|]. split.
  - split; [exact S1|]. cbn [smem]. unfold max_payload. intros x Ha Hx. apply R1; lia.
  - eexists ws, _. split; [exact Hw|exact Hr].
Qed.

Theorem C51_map_get : forall no nl n ko kl k kt vt ro rl st,
  imports E "stdlib.map_get" -> name_at (smem st) no nl n -> g_maps (shost st) n = Some (kt, vt) ->
  value_at (smem st) ko kl kt k -> g_view (shost st) = None ->
  ty_ok vt -> no_trait vt -> (forall v, d_map (g_db (shost st)) n k = Some v -> has_type vt v) ->
  0 <= ro -> ro + get_type_size (TOpt vt) + max_payload (TOpt vt) <= msize (smem st) ->
  exists st', calls E "stdlib.map_get" [VI32 no; VI32 nl; VI32 ko; VI32 kl; VI32 ro; VI32 rl] st (RVals [] st') /\
    returned st st' ro (TOpt vt) (match d_map (g_db (shost st)) n k with Some v => CSome v | None => CNone end).
Proof.
  intros no nl n ko kl k kt vt ro rl st Hi Hn Ht Hk Hw Hok Hnt Hty H0 H1. set (args := [VI32 no; _; _; _; _; _]).
  pose proof (host_calls E "stdlib.map_get" _ i_map_get args st Hi eq_refl) as C. unfold args in C. cbn [i_map_get] in C. fold args in C.
  rewrite (map_args_at _ _ _ _ _ _ _ _ _ Hn Ht Hk) in C. sopen C.
  destruct Hk as (_ & Hk & Hm & _). rewrite (admits_typed _ _ Hk), Hw in C. cbn iota in C.
  destruct (return_ok st (TOpt vt) (match d_map (g_db (shost st)) n k with Some v => CSome v | None => CNone end) ro) as (st' & He & Hr); auto.
  { destruct (d_map (g_db (shost st)) n k); cbn; auto. }
  exists st'. rewrite He in C. split; [exact C|exact Hr].
Qed.

(** [var-set] writes the variable; [var-get] leaves its value at the return offset. *)
Theorem C51_var_set : forall no nl n vo vl v t st,
  imports E "stdlib.set_variable" -> name_at (smem st) no nl n -> g_vars (shost st) n = Some t -> value_at (smem st) vo vl t v ->
  exists d' st', calls E "stdlib.set_variable" [VI32 no; VI32 nl; VI32 vo; VI32 vl] st (RVals [] st') /\
    stored st d' 0 st' /\ var_written (g_db (shost st)) d' n v.
Proof.
  intros no nl n vo vl v t st Hi Hn Ht Hv. set (args := [VI32 no; _; _; _]).
  pose proof (host_calls E "stdlib.set_variable" _ i_set_variable args st Hi eq_refl) as C. unfold args in C. cbn [i_set_variable] in C. fold args in C.
  rewrite (read_name_at _ _ _ _ Hn), Ht, (read_arg_at _ _ _ _ _ Hv) in C. sopen C.
  destruct Hv as (_ & Hv & _). rewrite (admits_typed _ _ Hv) in C. eexists _, _. split; [exact C|]. split; [|apply set_var_written].
  unfold stored. rewrite Z.sub_0_r. destruct (shost st); reflexivity.
Qed.
Theorem C51_var_get : forall no nl n v t ro rl st,
  imports E "stdlib.get_variable" -> name_at (smem st) no nl n -> g_vars (shost st) n = Some t ->
  g_view (shost st) = None -> d_var (g_db (shost st)) n = Some v -> has_type t v -> ty_ok t -> no_trait t ->
  0 <= ro -> ro + get_type_size t + max_payload t <= msize (smem st) ->
  exists st', calls E "stdlib.get_variable" [VI32 no; VI32 nl; VI32 ro; VI32 rl] st (RVals [] st') /\ returned st st' ro t v.
Proof.
  intros no nl n v t ro rl st Hi Hn Ht Hw Hd Hv Hok Hnt H0 H1. set (args := [VI32 no; _; _; _]).
  pose proof (host_calls E "stdlib.get_variable" _ i_get_variable args st Hi eq_refl) as C. unfold args in C. cbn [i_get_variable] in C. fold args in C.
  rewrite (read_name_at _ _ _ _ Hn), Ht in C. sopen C. rewrite Hw in C. cbn iota in C. rewrite Hd in C. cbn iota in C.
  destruct Hn as (_ & Hm & _). destruct (return_ok st t v ro) as (st' & He & Hr); auto. exists st'. rewrite He in C. split; [exact C|exact Hr].
Qed.

(** ** C53: read-only contexts *)
(** refused: the host reports an error and nothing has changed *)
Definition refused (f : string) (args : list val) (st : store gctx) : Prop := calls E f args st (RTrap THost st).

(** Map writes are refused in a read-only context .. *)
Theorem C53_read_only_refuses_map_writes_partial : forall st a b c d e g, is_read_only (shost st) = true ->
  (imports E "stdlib.map_set" -> refused "stdlib.map_set" [VI32 a; VI32 b; VI32 c; VI32 d; VI32 e; VI32 g] st) /\
  (imports E "stdlib.map_insert" -> refused "stdlib.map_insert" [VI32 a; VI32 b; VI32 c; VI32 d; VI32 e; VI32 g] st) /\
  (imports E "stdlib.map_delete" -> refused "stdlib.map_delete" [VI32 a; VI32 b; VI32 c; VI32 d] st).
Proof.
  intros st a b c d e g Hr. split; [|split]; intros Hi.
  - pose proof (host_calls E "stdlib.map_set" _ (i_map_put op_map_set) [VI32 a; VI32 b; VI32 c; VI32 d; VI32 e; VI32 g] st Hi eq_refl) as C.
    cbn [i_map_put] in C. rewrite Hr in C. exact C.
  - pose proof (host_calls E "stdlib.map_insert" _ (i_map_put op_map_insert) [VI32 a; VI32 b; VI32 c; VI32 d; VI32 e; VI32 g] st Hi eq_refl) as C.
    cbn [i_map_put] in C. rewrite Hr in C. exact C.
  - pose proof (host_calls E "stdlib.map_delete" _ i_map_delete [VI32 a; VI32 b; VI32 c; VI32 d] st Hi eq_refl) as C.
    cbn [i_map_delete] in C. rewrite Hr in C. exact C.
Qed.

(** .. but a variable write is not: it changes the pending tables in a read-only
    context as anywhere else (only the enclosing roll-back takes it away again). *)
Theorem C53_variable_writes_refuted : forall no nl n vo vl v t st,
  imports E "stdlib.set_variable" -> name_at (smem st) no nl n -> g_vars (shost st) n = Some t -> value_at (smem st) vo vl t v ->
  is_read_only (shost st) = true -> d_var (g_db (shost st)) n <> Some v ->
  exists st', calls E "stdlib.set_variable" [VI32 no; VI32 nl; VI32 vo; VI32 vl] st (RVals [] st') /\
    is_read_only (shost st') = true /\ d_var (g_db (shost st')) n = Some v /\ g_db (shost st') <> g_db (shost st).
Proof.
  intros no nl n vo vl v t st Hi Hn Ht Hv Hr Hd. destruct (C51_var_set no nl n vo vl v t st Hi Hn Ht Hv) as (d' & st' & C & -> & Hw).
  eexists. split; [exact C|]. split; [exact Hr|]. split; [exact (vw_here _ _ _ _ Hw)|]. cbn [shost]. rewrite gw6, gw7.
  intros He. apply Hd. rewrite <- He. exact (vw_here _ _ _ _ Hw).
Qed.
(** .. nor is a token mint. *)
Theorem C53_token_writes_refuted : forall no nl n ao al t i so sl p st,
  imports E "stdlib.nft_mint" -> name_at (smem st) no nl n -> g_nft (shost st) n = Some t ->
  value_at (smem st) ao al t i -> prin_at (smem st) so sl p -> g_view (shost st) = None ->
  is_read_only (shost st) = true -> d_owner (g_db (shost st)) n i = None -> 0 <= ser_size i -> nft_cost i <= g_memory (shost st) ->
  exists b st', calls E "stdlib.nft_mint" [VI32 no; VI32 nl; VI32 ao; VI32 al; VI32 so; VI32 sl] st (RVals [VI32 1; VI32 b; VI64 0; VI64 0] st') /\
    is_read_only (shost st') = true /\ d_owner (g_db (shost st')) n i = Some p.
Proof.
  intros no nl n ao al t i so sl p st Hi Hn Ht Hv Hp Hw Hr Ho Hs Hm.
  destruct (C38_mint E no nl n ao al t i so sl p st Hi Hn Ht Hv Hp Hw) as (_ & H & _). destruct (H Ho Hs Hm) as (b & st' & C & _ & d' & -> & Ha & _).
  exists b. eexists. split; [exact C|]. split; [exact Hr|]. cbn [shost]. rewrite gw6, gw7. pose proof (ap_owner _ _ _ Ha n i) as K. cbn in K.
  destruct (name_eq_dec n n); [|congruence]. destruct (value_eq_dec i i); [|congruence]. exact K.
Qed.
End Ops.
Print Assumptions C51_map_set.
Print Assumptions C51_map_insert.
Print Assumptions C51_map_delete.
Print Assumptions C51_map_get.
Print Assumptions C51_var_set.
Print Assumptions C51_var_get.
Print Assumptions C53_read_only_refuses_map_writes_partial.
Print Assumptions C53_variable_writes_refuted.
Print Assumptions C53_token_writes_refuted.

(** ** C52: at-block *)
Definition imports_at_block (E : env gctx) (f : string) : Prop := efun E f = None /\ ehost E f = assoc f at_block_host.
Lemma at_block_calls (E : env gctx) f ps h args st : imports_at_block E f -> assoc f at_block_host = Some (ps, h) -> calls E f args st (h args st).
Proof. intros [H1 H2] Hh. exists O. intros fu _. unfold invoke, call_func. rewrite H1, H2, Hh. reflexivity. Qed.

(** the module's own view of the chain: tables, savepoints, read-only marks, block being read *)
Definition same_frame (g g' : gctx) : Prop :=
  g_layers g' = g_layers g /\ g_ro g' = g_ro g /\ g_view g' = g_view g /\ g_bhh g' = g_bhh g /\ g_hist g' = g_hist g.

Definition entered (g : gctx) : gctx :=
  g_with_tx (g_with_memory g (g_memory g - 1)) (g_db g) (g_db g :: g_layers g) (true :: g_ro g).
Lemma enter_eq h g : length h = 32%nat -> 1 <= g_memory g ->
  op_enter_at_block h g = match g_hist g h with None => HErr (entered g) | Some _ => HOk [] (g_with_view (entered g) (Some h) (g_view g :: g_bhh g)) end.
Proof.
  intros Hl Hg. unfold op_enter_at_block, hbind, hguard, add_memory, at_block_memory. rewrite Hl. change (Z.of_nat 32 =? 32) with true. cbn iota.
  destruct (Z.leb_spec 1 (g_memory g)) as [_|]; [|lia]. destruct g. cbn. destruct (_ h); reflexivity.
Qed.

(** Entering: reads see the tables of that block, in a read-only context.
    After the matching exit the tables, the savepoints, the read-only marks and the
    block being read are what they were before entering, whatever was written to
    the tables in between; the one unit of memory budget is given back. *)
Theorem C52_at_block_leaves_no_trace : forall E o h past st,
  imports_at_block E "stdlib.enter_at_block" -> imports_at_block E "stdlib.exit_at_block" ->
  holds (smem st) o h -> length h = 32%nat -> msize (smem st) < 2 ^ 31 -> g_hist (shost st) h = Some past -> 1 <= g_memory (shost st) ->
  exists g1, calls E "stdlib.enter_at_block" [VI32 o; VI32 32] st (RVals [] (mkstore (smem st) (sglob st) g1)) /\
    is_read_only g1 = true /\ cur g1 = Some past /\ g_db g1 = g_db (shost st) /\
    forall st2, same_frame g1 (shost st2) ->
    exists g3, calls E "stdlib.exit_at_block" [] st2 (RVals [] (mkstore (smem st2) (sglob st2) g3)) /\
      g_db g3 = g_db (shost st) /\ same_frame (shost st) g3 /\ g_memory g3 = g_memory (shost st2) + 1.
Proof.
  intros E o h past st H1 H2 Hh Hl Hm Hp Hg.
  pose proof (at_block_calls E _ _ i_enter_at_block [VI32 o; VI32 32] st H1 eq_refl) as C. cbn [i_enter_at_block] in C.
  destruct (holds_small _ _ _ Hh Hm) as [E1 E2]. rewrite Hl in E2. change (Z.of_nat 32) with 32 in E2. rewrite E1, E2 in C.
  assert (Hr : read_from_wasm (smem st) (TBuff 32) o 32 = Some (CBuff h)).
  { cbn [read_from_wasm]. pose proof (hread_holds _ _ _ Hh) as K. rewrite Hl in K. change (Z.of_nat 32) with 32 in K. rewrite K. unfold buff_from. rewrite Hl. reflexivity. }
  rewrite Hr, (enter_eq h _ Hl Hg), Hp in C. cbn [run_op] in C.
  eexists. split; [exact C|]. split; [reflexivity|]. split; [exact Hp|]. split; [reflexivity|].
  intros st2 (L1 & L2 & L3 & L4 & L5).
  pose proof (at_block_calls E _ _ (i_nullary op_exit_at_block) [] st2 H2 eq_refl) as D. cbn [i_nullary] in D.
  unfold op_exit_at_block, op_roll_back, hbind, hget, hput, hmod, hret, hfail, run_op in D. rewrite L4 in D.
  change (g_bhh (g_with_view _ _ ?b)) with b in D. cbn iota in D. change (g_layers (g_with_view ?x _ _)) with (g_layers x) in D. rewrite L1 in D.
  change (g_layers (g_with_view (g_with_tx _ _ ?l _) _ _)) with l in D. cbn iota in D.
  eexists. split; [exact D|]. split; [reflexivity|]. split; [|reflexivity].
  unfold same_frame. cbn. rewrite L2, L5. auto 6.
Qed.
Print Assumptions C52_at_block_leaves_no_trace.

(** An unknown block aborts. *)
Theorem C52_unknown_block_aborts : forall E o h st,
  imports_at_block E "stdlib.enter_at_block" -> holds (smem st) o h -> length h = 32%nat -> msize (smem st) < 2 ^ 31 -> g_hist (shost st) h = None ->
  fails E "stdlib.enter_at_block" [VI32 o; VI32 32] st.
Proof.
  intros E o h st H1 Hh Hl Hm Hp.
  pose proof (at_block_calls E _ _ i_enter_at_block [VI32 o; VI32 32] st H1 eq_refl) as C. cbn [i_enter_at_block] in C.
  destruct (holds_small _ _ _ Hh Hm) as [E1 E2]. rewrite Hl in E2. change (Z.of_nat 32) with 32 in E2. rewrite E1, E2 in C.
  assert (Hr : read_from_wasm (smem st) (TBuff 32) o 32 = Some (CBuff h)).
  { cbn [read_from_wasm]. pose proof (hread_holds _ _ _ Hh) as K. rewrite Hl in K. change (Z.of_nat 32) with 32 in K. rewrite K. unfold buff_from. rewrite Hl. reflexivity. }
  rewrite Hr in C. unfold fails. destruct (Z_le_gt_dec 1 (g_memory (shost st))) as [Hg|Hg].
  - rewrite (enter_eq h _ Hl Hg), Hp in C. eexists. exact C.
  - unfold op_enter_at_block, hbind, hguard, add_memory, at_block_memory in C. rewrite Hl in C. change (Z.of_nat 32 =? 32) with true in C. cbn iota in C.
    destruct (Z.leb_spec 1 (g_memory (shost st))) as [|_]; [lia|]. eexists. exact C.
Qed.
Print Assumptions C52_unknown_block_aborts.

(** ** A concrete store: map tok of uint to uint, variable tok, and one past block *)
Definition g7 : gctx := mkg self None (fun _ => None) (fun n => if name_eq_dec n tok then Some TUInt else None)
  (fun n => if name_eq_dec n tok then Some TUInt else None) (fun n => if name_eq_dec n tok then Some (TUInt, TUInt) else None)
  no_db [] [] (fun h => if list_eq_dec Z.eq_dec h (bytes_at m0 0 32) then Some no_db else None) None [] (Some alice) [] (Some alice) [] 100000.
Definition st7 : store gctx := mkstore m0 [] g7.
Definition E7 : env gctx := mkenv (fun _ => None) (fun f => match assoc f ledger_host with Some x => Some x | None => assoc f at_block_host end) [].
Definition then7 (f : string) (args : list val) (r : result gctx) : result gctx :=
  match r with RVals _ st => invoke E7 3 f args st | r => r end.
(** insert 7 -> 7: true, then false; get: some 7; delete: true, then false *)
Example map_life :
  let kv := [VI32 0; VI32 3; VI32 300; VI32 16; VI32 300; VI32 16] in
  let r1 := invoke E7 3 "stdlib.map_insert" kv st7 in
  let r2 := then7 "stdlib.map_insert" kv r1 in
  let r3 := then7 "stdlib.map_get" [VI32 0; VI32 3; VI32 300; VI32 16; VI32 400; VI32 0] r2 in
  let r4 := then7 "stdlib.map_delete" [VI32 0; VI32 3; VI32 300; VI32 16] r3 in
  let r5 := then7 "stdlib.map_delete" [VI32 0; VI32 3; VI32 300; VI32 16] r4 in
  match r1, r2, r3, r4, r5 with
  | RVals [VI32 1] s1, RVals [VI32 0] _, RVals [] s3, RVals [VI32 1] s4, RVals [VI32 0] _ =>
      d_map (g_db (shost s1)) tok (CUInt 7) = Some (CUInt 7) /\ read_from_wasm_indirect (smem s3) (TOpt TUInt) 400 = Some (CSome (CUInt 7)) /\
      d_map (g_db (shost s4)) tok (CUInt 7) = None
  | _, _, _, _, _ => False
  end.
Proof. vm_compute. auto. Qed.
(** at-block: a variable written inside is gone after the exit *)
Example at_block_life :
  let r1 := invoke E7 3 "stdlib.enter_at_block" [VI32 0; VI32 32] st7 in
  let r2 := then7 "stdlib.set_variable" [VI32 0; VI32 3; VI32 300; VI32 16] r1 in
  let r3 := then7 "stdlib.exit_at_block" [] r2 in
  let rm := then7 "stdlib.map_set" [VI32 0; VI32 3; VI32 300; VI32 16; VI32 300; VI32 16] r1 in
  match r1, r2, r3, rm with
  | RVals [] s1, RVals [] s2, RVals [] s3, RTrap THost _ =>
      is_read_only (shost s1) = true /\ d_var (g_db (shost s2)) tok = Some (CUInt 7) /\ d_var (g_db (shost s3)) tok = None /\
      g_view (shost s3) = None /\ g_layers (shost s3) = [] /\ g_memory (shost s3) = 100000
  | _, _, _, _ => False
  end.
Proof. vm_compute. auto 10. Qed.
