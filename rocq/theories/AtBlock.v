(** * [at-block]: the compiled expression (model and proof support) *)
From Coq Require Import ZArith String List Bool Lia Arith.
Import ListNotations.
From Verif Require Import Wasm StdEnv WasmLogic WasmTac Spec ZBits Mem MemFacts Bytes Clar Codec Rep RepFacts ReadProofs WriteProofs ArgProofs PropCodec Emit EmitFacts
  Ledger LedgerProofs Calls CallProofs PropLedger PropStore Ast SpecLang Lang Typing LangFacts LangBase LangCtl LangMem LangSeq LangCall LangPrim LangMain LangPlain SpecChain LangTrace LangHost SpecPast LangSim.
Open Scope string_scope.
Open Scope list_scope.
Open Scope Z_scope.

(** words/blockinfo.rs 169-210 [at-block]: the hash, [enter_at_block], the expression,
    [exit_at_block].  Cost charging is left out (modelled on its own in Costs.v). *)
Definition e_at_block (h e : frag) : frag := fun d B l =>
  let '(ch, l) := h d B l in
  let '(ce, l) := e d B l in
  (ch ++ [Call "stdlib.enter_at_block"] ++ ce ++ [Call "stdlib.exit_at_block"], l).
Definition define_at (ds : list fundef) (a : at_fun) : func :=
  define_body (at_params a) (at_ret a)
    (e_at_block (compile (prog_sig ds) (at_ret a) (at_hash a)) (compile (prog_sig ds) (at_ret a) (at_body a))).

(** ** The host serves the words inside *)
Section Host.
Context (E : env gctx) (HE : serves E).
Ltac trap := cbn [did gave]; split; [reflexivity|eexists; reflexivity].
Ltac injection_op := match goal with H : Some (Abort _) = Some ?rs |- _ => apply (f_equal (fun o => match o with Some r => r | None => rs end)) in H; cbv beta iota in H; subst rs
  | H : refuse = Some ?rs |- _ => unfold refuse in H; apply (f_equal (fun o => match o with Some r => r | None => rs end)) in H; cbv beta iota in H; subst rs
  | H : Some (Done _ _) = Some ?rs |- _ => apply (f_equal (fun o => match o with Some r => r | None => rs end)) in H; cbv beta iota in H; subst rs end.
Ltac tys := repeat match goal with H : Forall _ (_ :: _) |- _ => apply Forall_cons_iff in H; destruct H end.
Ltac imp f := eapply (served_call E HE f); [unfold word_imports; cbn [In]; auto 20|reflexivity|reflexivity|].
Ltac named Hn := match goal with _ : holds _ _ ?n |- _ => destruct (is_clarity_name n) eqn:Hn; cbn [negb] in * end.
Ltac unname := cbn [app]; unfold host_err; match goal with H : holds ?m _ ?n, HM : msize ?m < 2 ^ 31 |- _ => rewrite (name_not m _ n H HM) by assumption end; injection_op; trap.
Ltac start := intros (Ho & Hst) vs st rs Hop Hty Hnm Hm0 Hm1; cbn [prim_ret prim_args prim_addr prim_name prim_named] in *; specialize (Hnm eq_refl);
  change (chain_cap (HS := gctx)) with (2 ^ 31 - 1) in Hm1; assert (Hm : msize (smem st) < 2 ^ 31) by (clear - Hm1; lia);
  cbn [chain_op past_chain] in Hop; cbn [past_op] in Hop; unfold past_word in Hop; cbn [prim_name] in Hop;
  destruct (past_tables (shost st)) as [past|] eqn:Hpast; [|discriminate].
Ltac sopen := unfold op_map_get, op_get_variable, reading, cur, hbind, hget, hopt, hret, hfail, hguard, run_op, host_err.
Lemma past_cur g d : past_tables g = Some d -> (match g_view g with None => Some (g_db g) | Some h => g_hist g h end) = Some d.
Proof. unfold past_tables. destruct (g_view g); [auto|discriminate]. Qed.

Lemma p_var_get n o t : prim_types (PVarGet n o t) -> prim_spec (CH := past_chain) E (PVarGet n o t).
Proof.
  start. destruct vs; [|exact I]. intros ro (R1 & R2 & R3). tys. imp "stdlib.get_variable". cbn [app i_get_variable]. named Hn; [|unname].
  rewrite (name_is _ _ _ Hnm Hm Hn). destruct (g_vars (shost st) n) as [t'|] eqn:Ht; [|injection_op; unfold host_err; trap].
  sopen. rewrite (past_cur _ _ Hpast). cbn iota. destruct (d_var past n) as [v|] eqn:Hv; [|injection_op; cbn [return_value]; trap].
  destruct (ty_eq_dec t t') as [<-|]; [|discriminate]. destruct (has_type_dec t v) as [Hv'|]; [|discriminate]. injection_op.
  apply back_ok; assumption.
Qed.
Lemma p_map_get n o kt vt : prim_types (PMapGet n o kt vt) -> prim_spec (CH := past_chain) E (PMapGet n o kt vt).
Proof.
  start. destruct vs as [|k [|]]; try exact I. intros a ro Ha (R1 & R2 & R3). tys. inversion Hty as [|? ? ? ? Hk _]; subst. imp "stdlib.map_get". cbn [app i_map_get]. unfold map_args. named Hn; [|unname].
  rewrite (name_is _ _ _ Hnm Hm Hn). destruct (g_maps (shost st) n) as [[kt' vt']|] eqn:Ht; [|injection_op; unfold host_err; trap].
  destruct (ty_eq_dec kt kt') as [<-|]; [|discriminate]. destruct (ty_eq_dec vt vt') as [<-|]; [|discriminate]. cbn [fst snd].
  assert (Hka : value_at (smem st) a (get_type_size kt mod m32) kt k) by (apply given_at; assumption).
  rewrite (read_arg_at _ _ _ _ _ Hka). sopen. rewrite (admits_typed _ _ Hk), (past_cur _ _ Hpast). cbn iota.
  destruct (d_map past n k) as [v|] eqn:Hv.
  - destruct (has_type_dec vt v) as [Hv'|]; [|discriminate]. injection_op. apply back_ok; assumption.
  - injection_op. apply back_ok; try assumption. exact I.
Qed.
Ltac ro := unfold map_args; match goal with _ : context [is_read_only ?g] |- _ => destruct (is_read_only g) eqn:Hro; [|discriminate] end; injection_op; unfold host_err; trap.
Lemma p_map_set n o kt vt : prim_types (PMapSet n o kt vt) -> prim_spec (CH := past_chain) E (PMapSet n o kt vt).
Proof. start. destruct vs as [|k [|v [|]]]; try exact I. intros a b Ha Hb. imp "stdlib.map_set". cbn [app i_map_put]. ro. Qed.
Lemma p_map_insert n o kt vt : prim_types (PMapInsert n o kt vt) -> prim_spec (CH := past_chain) E (PMapInsert n o kt vt).
Proof. start. destruct vs as [|k [|v [|]]]; try exact I. intros a b Ha Hb. imp "stdlib.map_insert". cbn [app i_map_put]. ro. Qed.
Lemma p_map_delete n o kt vt : prim_types (PMapDelete n o kt vt) -> prim_spec (CH := past_chain) E (PMapDelete n o kt vt).
Proof. start. destruct vs as [|k [|]]; try exact I. intros a Ha. imp "stdlib.map_delete". cbn [app i_map_delete]. ro. Qed.
Ltac topen := unfold op_ft_get_supply, op_ft_get_balance, get_ft_supply, get_ft_balance, reading, cur, hbind, hget, hopt, hret, hfail, run_op, host_err.
Lemma p_ft_supply n o : prim_types (PFtSupply n o) -> prim_spec (CH := past_chain) E (PFtSupply n o).
Proof.
  start. intros P ws Hrep. destruct vs; [|inversion Hty]. inversion Hrep; subst. cbn [ft_fun app]. imp "stdlib.ft_get_supply". cbn [i_ft_get_supply]. named Hn; [|unname].
  rewrite (name_is _ _ _ Hnm Hm Hn). topen. rewrite (past_cur _ _ Hpast). cbn iota. destruct (d_supply past n) as [s|]; [|injection_op; trap].
  destruct (u_ok s) eqn:Hu; [|discriminate]. apply u_ok_iff in Hu. injection_op. eapply did_ok; [reflexivity|reflexivity| |exact Hu]. intros m' P'. cbn [app]. apply rep_u. exact Hu.
Qed.
Lemma p_ft_balance n o : prim_types (PFtBalance n o) -> prim_spec (CH := past_chain) E (PFtBalance n o).
Proof.
  start. intros P ws Hrep. inversion Hrep as [|? ? v vs' w ws' H1 H2]; subst. inversion H2; subst. inversion Hty as [|? ? ? ? Hv _]; subst. destruct v as [| | |p| | | | | | | | | |]; try contradiction.
  destruct (prin_words _ _ TPrin _ _ H1 Hv Hm eq_refl) as (oo & ol & -> & Hp). cbn [ft_fun app]. imp "stdlib.ft_get_balance". cbn [i_ft_get_balance]. named Hn; [|unname].
  rewrite (name_is _ _ _ Hnm Hm Hn), Hp. topen. destruct (g_ft (shost st) n); [|injection_op; trap]. rewrite (past_cur _ _ Hpast). cbn iota.
  destruct (d_supply past n) as [s|]; [|injection_op; trap].
  destruct (u_ok _) eqn:Hu; [|discriminate]. apply u_ok_iff in Hu. injection_op. eapply did_ok; [reflexivity|reflexivity| |exact Hu]. intros m' P'. cbn [app]. apply rep_u. exact Hu.
Qed.
Ltac dead := intros vs st rs Hop; exfalso; cbn [chain_op past_chain past_op] in Hop; unfold past_word in Hop; destruct (past_tables _); [|discriminate Hop];
  repeat (match type of Hop with context [match ?x with _ => _ end] => destruct x end; try discriminate Hop); try discriminate Hop.
(** [tx-sender] and [contract-caller] are what they are elsewhere *)
Ltac native := match goal with |- prim_spec _ ?w => intros vs st rs Hop; destruct vs as [|v vs]; [exact (h_native E HE w eq_refl [] st rs Hop)|intros; exact I] end.
Theorem past_ok : host_ok (CH := past_chain) E.
Proof.
  split; [|exact (h_scope E HE)]. intros p Hp. destruct p.
  - apply p_var_get; exact Hp.
  - dead.
  - apply p_map_get; exact Hp.
  - apply p_map_set; exact Hp.
  - apply p_map_insert; exact Hp.
  - apply p_map_delete; exact Hp.
  - apply p_ft_supply; exact Hp.
  - apply p_ft_balance; exact Hp.
  - dead.
  - dead.
  - dead.
  - native.
  - native.
Qed.
End Host.

(** ** The two host calls *)
Section AtBlock.
Context (E : env gctx) (He : imports_at_block E "stdlib.enter_at_block") (Hx : imports_at_block E "stdlib.exit_at_block").
Lemma at_arity f ps h : imports_at_block E f -> assoc f at_block_host = Some (ps, h) -> fun_arity E f = Some (length ps).
Proof. intros [H1 H2] Ha. unfold fun_arity. rewrite H1, H2, Ha. reflexivity. Qed.

Lemma enter_run (st : store gctx) P h ws : rep (smem st) P (TBuff 32) (CBuff h) ws -> has_type (TBuff 32) (CBuff h) -> msize (smem st) < 2 ^ 31 ->
  wpf E "stdlib.enter_at_block" ws st (fun r =>
    if negb (length h =? 32)%nat || (g_memory (shost st) <? 1) || negb (is_some (g_hist (shost st) h)) then exists st', r = RTrap THost st'
    else r = RVals [] (host_at st (in_past h (shost st)))).
Proof.
  intros Hr Hty Hm. destruct Hr as (o & -> & Ho & Hl & Hh & _). destruct Hty as (Hlen & _).
  eapply calls_wpf; [apply (at_block_calls E _ _ i_enter_at_block _ _ He eq_refl)|]. cbn [i_enter_at_block].
  destruct (holds_small _ _ _ Hh Hm) as [E1 E2]. rewrite E1, E2.
  assert (Hrd : read_from_wasm (smem st) (TBuff 32) o (Z.of_nat (length h)) = Some (CBuff h)).
  { cbn [read_from_wasm]. rewrite (hread_holds _ _ _ Hh). unfold buff_from. destruct (Z.leb_spec (Z.of_nat (length h)) max_value_size) as [|K]; [reflexivity|unfold max_value_size in K; lia]. }
  rewrite Hrd. unfold op_enter_at_block, hbind, hguard, add_memory, at_block_memory.
  destruct (Nat.eqb_spec (length h) 32) as [H32|H32]; cbn [negb orb].
  - rewrite H32. change (Z.of_nat 32 =? 32) with true. cbn iota. destruct (Z.ltb_spec (g_memory (shost st)) 1) as [Hg|Hg]; cbn [orb].
    + destruct (Z.leb_spec 1 (g_memory (shost st))); [lia|]. eexists. reflexivity.
    + destruct (Z.leb_spec 1 (g_memory (shost st))) as [_|]; [|lia]. unfold host_at, in_past. destruct (shost st) as [a1 a2 a3 a4 a5 a6 a7 a8 a9 hist a11 a12 a13 a14 a15 a16 a17]. cbn.
      destruct (hist h); cbn; [reflexivity|]. eexists. reflexivity.
  - destruct (Z.eqb_spec (Z.of_nat (length h)) 32); [lia|]. eexists. reflexivity.
Qed.
Lemma exit_run (st : store gctx) g : leave_past (shost st) = Some g -> wpf E "stdlib.exit_at_block" [] st (fun r => r = RVals [] (host_at st g)).
Proof.
  intros H. eapply calls_wpf; [apply (at_block_calls E _ _ (i_nullary op_exit_at_block) _ _ Hx eq_refl)|]. cbn [i_nullary].
  unfold leave_past in H. unfold op_exit_at_block, op_roll_back, hbind, hget, hput, hmod, hret, hfail, run_op.
  destruct (g_bhh (shost st)) as [|v vs]; [discriminate|]. change (g_layers (g_with_view (shost st) v vs)) with (g_layers (shost st)).
  destruct (g_layers (shost st)) as [|d ls]; [discriminate|]. injection H as <-. reflexivity.
Qed.

(** ** The compiled expression does what [at_block false] says *)
Context (rt : ty) (L : list (ty * value * Z)) (X : Z).
Notation implL := (impl (CH := ledger_chain) E rt L X).
Notation implP := (impl (CH := past_chain) E rt L X).
Ltac fr_of H := let P := fresh "P" in pose proof (impl_fr _ _ _ _ _ _ _ _ _ H) as P.
Ltac ext_of H E X := let W := fresh in
  match type of E with ?c ?d ?B ?l = _ =>
    assert (W : lwf l) by (assumption || (eapply lext_wf; eassumption));
    pose proof (impl_ext _ _ _ _ _ _ _ _ _ _ _ _ _ _ H E W) as X; clear W end.
Lemma gives_host (F : Z -> Prop) t v h l ls st sp n ls' st' sp' ws g : gives (HS := gctx) F t v h l ls (host_at st g) sp n ls' st' sp' ws -> gives F t v h l ls st sp n ls' st' sp' ws.
Proof. intros [[M1 M2 M3 M4 M5] G2 G3 G4]. constructor; [constructor; assumption|assumption..]. Qed.
Lemma moved_host l ls (st : store gctx) sp n ls' st' sp' g : moved l ls st sp n ls' st' sp' -> moved l ls st sp n ls' (host_at st' g) sp'.
Proof. intros [M1 M2 M3 M4 M5]. constructor; assumption. Qed.

Lemma ctx_past G B r F l ls st sp n : ctx (CH := ledger_chain) L X G B r F l ls st sp n -> ctx (CH := past_chain) L X G B r F l ls st sp n.
Proof. intros [C1 C2 C3 C4 C5 C6 C7 C8]. constructor; assumption. Qed.

Lemma at_block_ok G t fh fe h e mh me : implL G (TBuff 32) fh h mh -> implP G t fe e me ->
  implL G t (fh + fe) (e_at_block h e) (fun r => at_block false (mh r) (me r)).
Proof.
  intros HA HB. fr_of HA. pose proof (impl_fr _ _ _ _ _ _ _ _ _ HB) as P0. split; [lia|].
  intros d B l code l' HC Hw. unfold e_at_block in HC.
  destruct (h d B l) as [ca l1] eqn:Ea. destruct (e d B l1) as [cb l2] eqn:Eb. pose proof (f_equal fst HC) as HC1; pose proof (f_equal snd HC) as HC2; cbn [fst snd] in HC1, HC2; clear HC; subst code l'.
  ext_of HA Ea Xa. assert (Xb : lext l1 l2) by (eapply (impl_ext _ _ _ _ _ _ _ _ _ _ _ _ _ _ HB Eb); eapply lext_wf; exact Xa).
  split; [eapply lext_trans; eauto|].
  intros F r js ls k st sp Q rs Hm HC HL HX HW. rewrite <- !app_assoc.
  set (rest := fun v (g0 : gctx) => at_block false (fun _ => Some (Done v g0)) (me r) g0).
  assert (Hm' : bind (mh r) rest (shost st) = Some rs).
  { unfold bind, rest, at_block in *. destruct (mh r (shost st)) as [[v g0|v g0|c]|]; assumption. }
  eapply impl_next with (1 := HA) (2 := Ea);
    [exact HC|eapply moved_refl; eauto|lia|apply lext_refl; auto|eapply ctx_less; [exact HC|lia]|exact Hm'|exact HX| |].
  { apply lext_len in Xb. lia. }
  intros v g0 ls1 st1 sp1 ws HG HM1 Hf HL1. unfold rest, at_block in Hf.
  destruct v as [| | | |bs| | | | | | | | |]; try discriminate.
  pose proof (g_rep _ _ _ _ _ _ _ _ _ _ _ _ _ HG) as Hrep. pose proof (g_type _ _ _ _ _ _ _ _ _ _ _ _ _ HG) as Hty.
  assert (Hcap : msize (smem st1) < 2 ^ 31).
  { pose proof (c_cap _ _ _ _ _ _ _ _ _ _ _ HC) as K. change (chain_cap (HS := gctx)) with (2 ^ 31 - 1) in K. rewrite (proj1 (m_mem _ _ _ _ _ _ _ _ HM1)). lia. }
  cbn [app]. eapply (wp_call_all E "stdlib.enter_at_block" 2); [exact (at_arity _ _ _ He eq_refl)|exact HL1|].
  pose proof (enter_run st1 _ bs ws Hrep Hty Hcap) as HE. unfold refuse in Hf.
  destruct (negb (length bs =? 32)%nat) eqn:B1; cbn [orb] in HE.
  { injection Hf as <-. eapply wpf_mono; [exact HE|]. intros r0 (st' & ->). cbn [exits] in HX. apply (proj2 HX eq_refl st'). }
  destruct (g_memory (shost st1) <? 1) eqn:B2; cbn [orb] in HE.
  { injection Hf as <-. eapply wpf_mono; [exact HE|]. intros r0 (st' & ->). apply (proj2 HX eq_refl st'). }
  destruct (g_hist (shost st1) bs) as [past|] eqn:B3; cbn [is_some negb] in HE.
  2:{ injection Hf as <-. eapply wpf_mono; [exact HE|]. intros r0 (st' & ->). apply (proj2 HX eq_refl st'). }
  eapply wpf_mono; [exact HE|]. intros r0 ->. cbn [qcall ret_call rev app]. cbv beta.
  set (st1' := host_at st1 (in_past bs (shost st1))).
  assert (HM1' : moved l ls st sp (0 + fh) ls1 st1' sp1) by (apply moved_host; exact HM1).
  assert (HC1 : ctx L X G B r F l1 ls1 st1' sp1 fe) by (eapply ctx_moved; [exact HC|exact Xa|exact HM1'|lia]).
  assert (Hf' : bind (me r) (fun v g2 => option_map (Done v) (leave_past g2)) (shost st1') = Some rs) by exact Hf.
  eapply impl_next with (1 := HB) (2 := Eb);
    [exact (ctx_past _ _ _ _ _ _ _ _ _ HC)|exact HM1'|lia|exact Xa|exact (ctx_past _ _ _ _ _ _ _ _ _ HC1)|exact Hf'|exact HX|lia|].
  intros v g2 ls2 st2 sp2 ws2 HG2 HM2 Hv HL2. cbv beta in Hv. destruct (leave_past (shost st2)) as [g3|] eqn:Hlv; [|discriminate]. cbn [option_map] in Hv. injection Hv as <-.
  cbn [app]. apply (wp_call_all E "stdlib.exit_at_block" 0 [] (rev ws2 ++ k) js ls2 st2 Q (at_arity _ _ _ Hx eq_refl) eq_refl).
  eapply wpf_mono; [exact (exit_run st2 g3 Hlv)|]. intros r0 ->. cbn [qcall ret_call rev app]. cbv beta.
  apply (HW v g3 ls2 (host_at st2 g3) sp2 ws2 eq_refl). destruct HG2 as [_ G2 G3 G4]. constructor; [apply moved_host; exact HM2|exact G2|exact G3|reflexivity].
Qed.
End AtBlock.

(** ** Expressions that contain no word that leaves the function *)
Section Calm.
Context {HS : Type} {CH : chain HS} (Hop : forall p vs h v h', chain_op p vs h <> Some (Early v h')).
Definition calm {A} (m : M HS A) : Prop := forall h v h', m h <> Some (Early v h').
Lemma calm_ret {A} (a : A) : calm (ret a). Proof. intros h v h'. discriminate. Qed.
Lemma calm_abort {A} c : calm (abort (A := A) c). Proof. intros h v h'. discriminate. Qed.
Lemma calm_bad {A} : calm (bad (A := A)). Proof. intros h v h'. discriminate. Qed.
Lemma calm_bind {A B} (m : M HS A) (f : A -> M HS B) : calm m -> (forall a, calm (f a)) -> calm (bind m f).
Proof.
  intros Hm Hf h v h' H. unfold bind in H. destruct (m h) as [[a h1|w h1|c]|] eqn:E; try discriminate; [exact (Hf a _ _ _ H)|exact (Hm _ _ _ E)].
Qed.
Lemma calm_opt {A} (o : option A) : calm (of_opt o). Proof. destruct o; [apply calm_ret|apply calm_bad]. Qed.
Lemma calm_sum o : calm (of_sum o). Proof. destruct o; [apply calm_ret|apply calm_abort]. Qed.
Lemma calm_mapM {A} (ms : list (M HS A)) : Forall calm ms -> calm (mapM ms).
Proof. induction 1; cbn [mapM]; [apply calm_ret|]. apply calm_bind; [assumption|]. intros a. apply calm_bind; [assumption|]. intros ?; apply calm_ret. Qed.
Lemma calm_allM stop (ms : list (M HS value)) : Forall calm ms -> calm (allM stop ms).
Proof.
  induction 1; cbn [allM]; [apply calm_ret|]. apply calm_bind; [assumption|]. intros a. destruct a; try apply calm_bad. destruct (Bool.eqb b stop); [apply calm_ret|auto].
Qed.
Variables (strict : bool) (funs : string -> list value -> M HS value) (HF : forall f vs, calm (funs f vs)).
Lemma calm_unless {A} b (m : M HS A) : calm m -> calm (unless strict b m).
Proof. intros Hm h v h'. unfold unless. destruct (strict && b h); [discriminate|apply Hm]. Qed.
Lemma calm_scoped s (m : M HS value) : calm m -> calm (scoped strict s m).
Proof.
  intros Hm h w h'. unfold scoped. destruct (chain_open s h) as [h1|]; [|discriminate]. destruct (m h1) as [[v h2|v h2|c]|] eqn:E; try discriminate.
  - destruct (chain_close s (is_ok v) h2); discriminate.
  - exfalso. exact (Hm _ _ _ E).
Qed.
Lemma calm_called k (m : M HS value) : calm m -> calm (called_as strict k m).
Proof. unfold called_as. destruct (kind_scope k); [apply calm_scoped|auto]. Qed.
Lemma calm_foldA o t vs : forall v, calm (foldA (HS := HS) o t v vs).
Proof. induction vs as [|x vs IH]; intros v; cbn [foldA]; [apply calm_ret|]. destruct (num_of t v); [|apply calm_bad]. destruct (num_of t x); [|apply calm_bad]. apply calm_bind; [apply calm_sum|exact IH]. Qed.
Lemma calm_arith o t v vs : calm (arithM (HS := HS) o t v vs).
Proof. unfold arithM. destruct vs; [|apply calm_foldA]. destruct (num_of t v); [apply calm_sum|apply calm_bad]. Qed.
Ltac ca := repeat first [apply calm_ret|apply calm_abort|apply calm_bad|apply calm_opt|apply calm_sum|apply calm_arith|apply calm_unless|apply calm_scoped|apply calm_called|solve [auto]
  |match goal with |- calm (bind _ _) => apply calm_bind end
  |match goal with |- forall _, _ => intros ? end|match goal with |- calm (match ?x with _ => _ end) => destruct x end].
Lemma calm_apply g t vs : calm (apply_fn strict funs g t vs).
Proof. destruct g; cbn [apply_fn]; ca. Qed.
Lemma calm_fold g t xs : forall acc, calm (foldF strict funs g t xs acc).
Proof. induction xs as [|x xs IH]; intros acc; cbn [foldF]; [apply calm_ret|]. apply calm_bind; [apply calm_apply|exact IH]. Qed.
Lemma calm_map g t rs : calm (mapF strict funs g t rs).
Proof. induction rs as [|vs rs IH]; cbn [mapF]; [apply calm_ret|]. apply calm_bind; [apply calm_apply|]. intros v. apply calm_bind; [exact IH|]. intros ws. apply calm_ret. Qed.
Lemma calm_list es r : Forall (fun e => stays e = true -> forall r, calm (eval strict funs e r)) es -> forallb stays es = true -> Forall calm (map (fun e => eval strict funs e r) es).
Proof. induction 1 as [|e es He H IH]; cbn; intros Hs; constructor; apply andb_prop in Hs as (? & ?); auto. Qed.
Theorem stays_calm e : stays e = true -> forall r, calm (eval strict funs e r).
Proof.
  induction e using expr_ind'; intros Hs r; cbn [stays] in Hs; try discriminate; repeat match goal with H : _ && _ = true |- _ => apply andb_prop in H as (? & ?) end; cbn [eval]; try (ca; fail).
  - apply calm_allM, calm_list; auto.
  - apply calm_allM, calm_list; auto.
  - ca. apply calm_mapM, calm_list; auto.
  - apply calm_bind; [|ca]. apply calm_mapM. induction H as [|[k e] fs He H IH]; cbn in *; constructor; apply andb_prop in Hs as (? & ?); auto. ca.
  - ca. apply calm_mapM, calm_list; auto.
  - ca. apply calm_fold.
  - apply calm_bind; [apply calm_mapM, calm_list; auto|]. intros vs. apply calm_bind; [apply calm_map|]. intros ws. apply calm_ret.
  - cbv zeta. ca. apply calm_mapM, calm_list; auto.
  - ca. apply calm_mapM, calm_list; auto.
  - ca. apply calm_mapM, calm_list; auto.
  - apply calm_bind; [apply calm_mapM, calm_list; auto|]. intros vs h v h'. apply Hop.
Qed.
End Calm.
Lemma past_never p vs h v h' : chain_op (chain := past_chain) p vs h <> Some (Early v h').
Proof.
  cbn [chain_op past_chain]. unfold past_op, past_word, ledger_who, refuse.
  intros H; repeat (match type of H with context [match ?x with _ => _ end] => destruct x end; try discriminate H).
Qed.
Lemma run_calm {HS} {CH : chain HS} strict ds f vs : calm (HS := HS) (run_defs (CH := CH) strict ds f vs).
Proof.
  induction ds as [|d ds IH]; cbn [run_defs]; [apply calm_bad|]. destruct (String.eqb (fd_name d) f); [|exact IH]. intros h v h'. unfold as_fun.
  destruct (eval strict (run_defs strict ds) (fd_body d) (combine (map fst (fd_params d)) vs) h) as [rs|]; [|discriminate]. destruct rs; congruence.
Qed.

(** ** What an evaluation in the past does to the state: nothing *)
Definition same_if_tidy (g g' : gctx) : Prop := (g_sender g = None -> g_senders g = []) /\ (g_caller g = None -> g_callers g = []) -> g' = g.
Lemma past_keeps : (forall p vs h, match chain_op (chain := past_chain) p vs h with Some (Done _ h') | Some (Early _ h') => same_if_tidy h h' | _ => True end) /\
  (forall s keep h h1 h2 h3, chain_open (chain := past_chain) s h = Some h1 -> same_if_tidy h1 h2 -> chain_close (chain := past_chain) s keep h2 = Some h3 -> same_if_tidy h h3).
Proof.
  split.
  - intros p vs h. destruct (chain_op p vs h) as [rs|] eqn:H; [|exact I]. cbn [chain_op past_chain] in H. unfold past_op, past_word, ledger_who, refuse in H.
    repeat (match type of H with context [match ?x with _ => _ end] => destruct x end; try discriminate H); injection H as <-; try exact I; intros _; reflexivity.
  - intros s keep h h1 h2 h3 Ho H Hc T. cbn [chain_open chain_close past_chain] in Ho, Hc. pose proof T as (T1 & T2). destruct s; cbn [ledger_open] in Ho; injection Ho as <-.
    + rewrite H in Hc by exact T. cbn in Hc. destruct h. destruct keep; cbn in Hc; injection Hc as <-; reflexivity.
    + rewrite H in Hc by exact T. cbn in Hc. destruct h. injection Hc as <-. reflexivity.
    + rewrite H in Hc by (split; discriminate). cbn in Hc. destruct h as [x1 x2 x3 x4 x5 x6 x7 x8 x9 x10 x11 x12 sd sds cl cls x17]. cbn in *.
      destruct sd; [|pose proof (T1 eq_refl); subst sds]; (destruct cl; [|pose proof (T2 eq_refl); subst cls]); cbn in Hc; injection Hc as <-; reflexivity.
Qed.
Lemma past_eval_same strict ds e r : follows same_if_tidy (eval (CH := past_chain) strict (run_defs (CH := past_chain) strict ds) e r).
Proof.
  destruct past_keeps as (K1 & K2).
  assert (R1 : forall h, same_if_tidy h h) by (intros h _; reflexivity).
  assert (R2 : forall a b c, same_if_tidy a b -> same_if_tidy b c -> same_if_tidy a c) by (intros a b c H1 H2 T; specialize (H1 T); subst b; apply H2; exact T).
  apply eval_follows; auto. intros f vs. apply run_follows; auto.
Qed.
Lemma leave_entered h g : leave_past (in_past h g) = Some g.
Proof. destruct g. cbn -[Z.add Z.sub]. rewrite Z.sub_add. reflexivity. Qed.

(** ** Reading the past is reading a present whose tables are those of the block *)
Lemma past_sim d : let R := fun g g' => past_tables g = Some d /\ g' = as_of d g in
  (forall p vs h h', R h h' -> matched R (chain_op (chain := past_chain) p vs h) (chain_op (chain := ledger_chain) p vs h')) /\
  (forall s h h' h1, R h h' -> chain_open (chain := past_chain) s h = Some h1 -> exists h1', chain_open (chain := ledger_chain) s h' = Some h1' /\ R h1 h1') /\
  (forall s keep h h' h1, R h h' -> chain_close (chain := past_chain) s keep h = Some h1 -> exists h1', chain_close (chain := ledger_chain) s keep h' = Some h1' /\ R h1 h1').
Proof.
  intros R. split; [|split].
  - intros p vs h h' (Hd & ->).
    assert (Hv : g_view (as_of d h) = None) by reflexivity. assert (HR : R h (as_of d h)) by (split; [exact Hd|reflexivity]).
    assert (F : g_db (as_of d h) = d /\ is_read_only (as_of d h) = is_read_only h /\ g_vars (as_of d h) = g_vars h /\ g_maps (as_of d h) = g_maps h /\ g_ft (as_of d h) = g_ft h /\ g_sender (as_of d h) = g_sender h /\ g_caller (as_of d h) = g_caller h) by (destruct h; auto 10).
    destruct F as (F1 & F2 & F3 & F4 & F5 & F6 & F7). cbn [chain_op past_chain ledger_chain].
    unfold past_op, ledger_op, past_word, ledger_word. cbv zeta. rewrite Hd, Hv, F1, F2, F3, F4, F5, F6, F7. cbn [is_some].
    unfold ledger_who, refuse. destruct p; cbn [prim_name]; repeat (try exact I; match goal with |- matched _ (match ?x with _ => _ end) _ => destruct x end); try exact I; try reflexivity; first [eexists; split; [reflexivity|exact HR]|cbn [matched]; match goal with |- (if ?c then _ else _) = _ => destruct c; reflexivity end].
  - intros s h h' h1 (Hd & ->) Ho. cbn [chain_open past_chain ledger_chain] in *. destruct s; cbn [ledger_open] in *; injection Ho as <-; eexists; (split; [reflexivity|]); (split; [exact Hd|]); destruct h; reflexivity.
  - intros s keep h h' h1 (Hd & ->) Hc. cbn [chain_close past_chain ledger_chain] in *. destruct s; cbn [ledger_close] in *.
    + change (g_layers (as_of d h)) with (map (fun _ => d) (g_layers h)). destruct (g_layers h) as [|old ls] eqn:Hl; [discriminate|]. injection Hc as <-. cbn [map]. eexists. split; [reflexivity|]. split; [exact Hd|]. destruct h, keep; reflexivity.
    + change (g_layers (as_of d h)) with (map (fun _ => d) (g_layers h)). destruct (g_layers h) as [|old ls] eqn:Hl; [discriminate|]. injection Hc as <-. cbn [map]. eexists. split; [reflexivity|]. split; [exact Hd|]. destruct h; reflexivity.
    + change (g_sender (as_of d h)) with (g_sender h). change (g_caller (as_of d h)) with (g_caller h). destruct (g_sender h) eqn:Hs; [|discriminate]. destruct (g_caller h) eqn:Hk; [|discriminate]. injection Hc as <-. eexists. split; [reflexivity|]. split; [exact Hd|]. destruct h; reflexivity.
Qed.
