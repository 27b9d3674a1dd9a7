(** * Correctness of emitted expression code: the function given to fold, map, filter (proof support) *)
From Coq Require Import ZArith String List Bool Lia.
Import ListNotations.
From Verif Require Import ReadProofs Wasm Std StdEnv WasmLogic WasmTac Mem MemFacts Bytes Spec SpecBytes SpecUtf8 ArithProofs Clar Rep RepFacts Emit EmitFacts EmitProofs Equal EqualProofs
  CallProofs ArgProofs Ast SpecLang Lang Typing LangFacts LangBase LangCtl LangEarly LangMem LangSeq LangList LangConcat LangArith LangWord LangCopy LangCall.
Open Scope string_scope.
Open Scope list_scope.
Open Scope Z_scope.

Definition yes (b : bool) : bool := b.
Lemma bools_all any bs : bools any (map CBool bs) = Some (if any then existsb yes bs else forallb yes bs).
Proof. induction bs as [|b bs IH]; cbn [map bools]; [destruct any; reflexivity|]. rewrite IH. cbn. destruct any; reflexivity. Qed.
Definition fold_bool (any : bool) (bs : list bool) (b : bool) : bool := fold_left (fun x y => if any then y || x else y && x) bs b.
Lemma fold_bool_spec any bs : forall b, fold_bool any bs b = if any then existsb yes (b :: bs) else forallb yes (b :: bs).
Proof.
  induction bs as [|c bs IH]; intros b; unfold fold_bool in *; cbn [fold_left]; [destruct any, b; reflexivity|]. rewrite IH. cbn. unfold yes. destruct any, b, c; cbn; reflexivity.
Qed.
Lemma existsb_rev bs : existsb yes (rev bs) = existsb yes bs.
Proof. induction bs as [|b bs IH]; [reflexivity|]. cbn [rev]. rewrite existsb_app, IH. cbn. rewrite orb_false_r. apply orb_comm. Qed.
Lemma forallb_rev bs : forallb yes (rev bs) = forallb yes bs.
Proof. induction bs as [|b bs IH]; [reflexivity|]. cbn [rev]. rewrite forallb_app, IH. cbn. rewrite andb_true_r. apply andb_comm. Qed.

Lemma rep_widen_list m P ts : forall ps vs ws, length ts = length ps -> forallb (fun p => widens (fst p) (snd p)) (combine ts ps) = true ->
  rep_list m P ts vs ws -> Forall2 has_type ts vs -> rep_list m P ps vs ws /\ Forall2 has_type ps vs.
Proof.
  induction ts as [|t ts IH]; intros [|p ps] vs ws Hl Hw Hr Ht; try discriminate.
  - inversion Hr; subst. inversion Ht; subst. split; constructor.
  - cbn [combine forallb fst snd] in Hw. apply andb_prop in Hw as (W1 & W2). inversion Hr as [|? ? v ? w1 w2 R1 R2]; subst. inversion Ht; subst. injection Hl as Hl.
    destruct (IH ps _ _ Hl W2 R2 ltac:(assumption)) as (I1 & I2). split; constructor; auto; [eapply widens_rep; eauto|eapply widens_has_type; eauto].
Qed.

Section Fn.
Context {HS : Type} {CH : chain HS} (E : env HS) (HE : has_std E) (sig : list (string * fsig)) (L : list (ty * value * Z)) (X : Z) (HX0 : 0 <= X).
Hypothesis HO : scope_ok E.
Variable funs : string -> list value -> M HS value.
Hypothesis Hfuns : forall f ts tr, assoc f sig = Some (ts, tr) -> fun_ok E L X funs f ts tr.
Notation wp := (wp E).

(** the state a function is called in *)
Record callable (F : Z -> Prop) (st : store HS) (sp : Z) : Prop := mkcallable {
  k_sp : gget (sglob st) "stack-pointer" = Some (VI32 sp);
  k_err : exists w, gget (sglob st) "runtime-error-code" = Some w;
  k_lo : 0 <= sp;
  k_up : forall a, sp <= a -> F a;
  k_lits : Forall (held (smem st) (vis F sp)) L;
  k_room : sp + X <= msize (smem st) < m32;
  k_cap : msize (smem st) <= chain_cap (HS := HS) }.

Lemma ctx_callable G B r F l ls st sp n : ctx L X G B r F l ls st sp n -> 0 <= n -> callable F st sp.
Proof. intros [C1 C0 C2 C3 C4 C5 C6 C7] Hn. constructor; auto. lia. Qed.
Lemma callable_after F st st' sp : callable F st sp -> below sp (smem st) (smem st') -> (forall n, gget (sglob st') n = gget (sglob st) n) -> callable F st' sp.
Proof.
  intros [C1 C2 C3 C4 C5 C6 C7] (B1 & B2) Hg. constructor; auto.
  - rewrite Hg. exact C1.
  - rewrite Hg. exact C2.
  - eapply Forall_impl; [|exact C5]. intros x. apply held_frame; auto. intros a (Ha & _). auto.
  - rewrite B1. exact C6.
  - rewrite B1. exact C7.
Qed.

(** the code applies [m] to the values on the stack *)
Definition applies (t : ty) (ts : list ty) (m : list value -> M HS value) (c : list instr) (l l' : lst) : Prop :=
  lext l l' /\
  forall (F : Z -> Prop) sp vs ws (st : store HS) rs js ls k (Q : outcome HS -> Prop), callable F st sp -> (llen l' <= length ls)%nat ->
    rep_list (smem st) (vis F sp) ts vs ws -> Forall2 has_type ts vs -> m vs (shost st) = Some rs ->
    (forall c, rs = Abort c -> (forall st', gget (sglob st') "runtime-error-code" = Some (VI32 c) -> Q (OTrap TUnreachable st')) /\ (c = err_host -> forall st', Q (OTrap THost st'))) ->
    (forall v h ls' st' ws', rs = Done v h -> lkeep l ls ls' -> below sp (smem st) (smem st') -> (forall n, gget (sglob st') n = gget (sglob st) n) -> shost st' = h ->
       (forall m P, rep m P t v ws') -> has_type t v -> wp js (mkcfg ls' (rev ws' ++ k) st') Q) ->
    wp (c ++ js) (mkcfg ls (rev ws ++ k) st) Q.

Lemma call_applies kd f t tr ps ts l c l' : assoc f sig = Some (ps, tr) -> length ts = length ps -> forallb (fun p => widens (fst p) (snd p)) (combine ts ps) = true ->
  widens tr t = true -> has_in_memory tr = false -> kind_ret kd tr = true -> call_code kd f tr l = (c, l') -> lwf l ->
  applies t ts (fun vs => called_as true kd (funs f vs)) c l l'.
Proof.
  intros Hs Hl Hw Hwt Hm Hkr Hcc Hwf. destruct (invoke_ok E L X funs kd f ps tr l c l' HO (Hfuns _ _ _ Hs) Hkr Hcc Hwf) as (Xi & Hinv).
  split; [exact Xi|]. intros F sp vs ws st rs js ls k Q HK HL Hr Ht Hf HA HW.
  destruct (rep_widen_list _ _ _ _ _ _ Hl Hw Hr Ht) as (Hr' & Ht'). destruct HK as [C1 C2 C3 C4 C5 C6 C7].
  eapply (Hinv vs ws st sp F rs); [assumption..|exact HL|]. destruct rs as [v h|v h|cd]; [|exact I|exact (HA _ eq_refl)].
  intros ws' ls' st' K' Hb Hg Hh Hr3 Ht3. apply (HW v h ls' st' ws' eq_refl K' Hb Hg Hh); [|eapply widens_has_type; eauto].
  intros m P. eapply widens_rep; [exact Hwt|]. eapply no_mem_rep; [exact Hm|exact Hr3].
Qed.

Lemma bool_run any xs : forall y js ls k (st : store HS) Q, wp js (mkcfg ls (VI32 (b2z (fold_bool any xs y)) :: k) st) Q ->
  wp (repeat (B32 (if any then Or else And)) (length xs) ++ js) (mkcfg ls (VI32 (b2z y) :: map (fun b => VI32 (b2z b)) xs ++ k) st) Q.
Proof.
  induction xs as [|x xs IH]; intros y js ls k st Q H; [exact H|]. cbn [length repeat app map]. destruct any.
  - eapply wp_b32; [apply b2z_or|]. exact (IH _ _ _ _ _ _ H).
  - eapply wp_b32; [apply LangSeq.b2z_and|]. exact (IH _ _ _ _ _ _ H).
Qed.

Lemma rep_bools m P ts : forall vs ws, forallb is_bool ts = true -> rep_list m P ts vs ws -> exists bs, vs = map CBool bs /\ ws = map (fun b => VI32 (b2z b)) bs /\ length bs = length ts.
Proof.
  induction ts as [|t ts IH]; intros vs ws Hb Hr; inversion Hr as [|? ? v ? w1 w2 R1 R2]; subst.
  - exists []. auto.
  - cbn [forallb] in Hb. apply andb_prop in Hb as (B1 & B2). destruct (IH _ _ B2 R2) as (bs & -> & -> & Hl). destruct t; try discriminate. destruct v; cbn [rep] in R1; try contradiction. subst w1.
    exists (b :: bs). cbn. split; [reflexivity|]. split; [destruct b; reflexivity|]. f_equal. exact Hl.
Qed.

(** arithmetic on two values *)
Lemma arith2_applies o t l : is_num t = true -> lwf l -> applies t [t; t] (fun vs => match vs with v :: vs => unless true (fun h => negb (arith_ok o t v (map ret vs) h)) (arithM o t v vs) | [] => bad end) [Call (arith_fun o t)] l l.
Proof.
  intros Ht Hw. split; [apply lext_refl; exact Hw|]. intros F sp vs ws st rs js ls k Q HK HL Hr Hty Hf HA HW.
  destruct (rep_list_2 _ _ _ _ _ _ Hr) as (x & y & w1 & w2 & -> & -> & R1 & R2). inversion Hty as [|? ? ? ? T1 T2']; subst. inversion T2' as [|? ? ? ? T2 _]; subst.
  destruct (rep_num_inv _ _ _ _ _ Ht R1) as (a & -> & ->). destruct (rep_num_inv _ _ _ _ _ Ht R2) as (b & -> & ->). apply type_num_inv in T1, T2; auto.
  unfold unless in Hf. cbn [andb map] in Hf. cbn [arith_ok foldA_ok arithM foldA] in Hf. unfold ret at 1 in Hf. rewrite !num_of_num in Hf by exact Ht.
  destruct (wrong2 o t a b) eqn:Hwr; [discriminate|]. cbn [negb andb] in Hf. cbn [app].
  eapply does_wp; [apply arith2_does; [exact HE|exact Ht|exact T1|exact T2|exact Hwr]|apply (arith_arity E HE)|eapply k_err; exact HK|].
  destruct (arith2 o t a b) as [v|c] eqn:Ea.
  - intros ws Hws Htv. cbn in Hf. injection Hf as <-. apply (HW v (shost st) ls st ws eq_refl); [apply lkeep_refl|apply below_refl|reflexivity|reflexivity|exact Hws|exact Htv].
  - intros st' Hst'. cbn in Hf. injection Hf as <-. eapply HA; [reflexivity|exact Hst'].
Qed.

(** ... on one value *)
Lemma arith1_applies o t l c l' : is_num t = true -> arith_single o t l = (c, l') -> lwf l ->
  applies t [t] (fun vs => match vs with v :: vs => unless true (fun h => negb (arith_ok o t v (map ret vs) h)) (arithM o t v vs) | [] => bad end) c l l'.
Proof.
  intros Ht Es Hw.
  assert (Xs : lext l l').
  { unfold arith_single in Es. destruct o; try (injection Es as <- <-; apply lext_refl; exact Hw). destruct t; try (injection Es as <- <-; apply lext_refl; exact Hw).
    destruct (add_local T64 l) as [lo l3] eqn:E1. destruct (add_local T64 l3) as [hi l4] eqn:E2. injection Es as <- <-.
    destruct (add_ok _ _ _ _ E1 Hw) as (A1 & A2 & A3). destruct (add_ok _ _ _ _ E2 (lext_wf _ _ A1)) as (B1 & B2 & B3). eapply lext_trans; eauto. }
  split; [exact Xs|]. intros F sp vs ws st rs js ls k Q HK HL Hr Hty Hf HA HW.
  destruct (rep_list_1 _ _ _ _ _ Hr) as (x & -> & R1). inversion Hty as [|? ? ? ? T1 _]; subst.
  destruct (rep_num_inv _ _ _ _ _ Ht R1) as (z & -> & ->). apply type_num_inv in T1; auto. pose proof (k_err _ _ _ HK) as Herr.
  unfold unless in Hf. cbn [andb map] in Hf. cbn [arith_ok arithM] in Hf. rewrite num_of_num in Hf by exact Ht. rewrite negb_involutive in Hf.
  destruct (wrong1 o t z) eqn:Hwr; [discriminate|].
  assert (HID : arith1 o t z = inl (num t z) -> wp js (mkcfg ls (rev (nws z) ++ k) st) Q).
  { intros He. rewrite He in Hf. injection Hf as <-. apply (HW _ _ ls st (nws z) eq_refl); [apply lkeep_refl|apply below_refl|reflexivity|reflexivity|intros; apply rep_nws; exact Ht|apply type_num; assumption]. }
  destruct o; cbn [arith_single] in Es; try (injection Es as <- <-; cbn [app]; apply HID; reflexivity).
  destruct t; try discriminate.
  + destruct (add_local T64 l) as [lo l3] eqn:E1. destruct (add_local T64 l3) as [hi l4] eqn:E2. injection Es as <- <-.
    destruct (add_ok _ _ _ _ E1 Hw) as (A1 & A2 & A3). destruct (add_ok _ _ _ _ E2 (lext_wf _ _ A1)) as (B1 & B2 & B3).
    cbn [app nws rev]. apply wp_lset. apply wp_lset. apply wp_const. apply wp_const.
    assert (Hne : lo <> hi) by (intros ->; auto).
    eapply wp_lget; [apply lset_same; rewrite lset_len; apply lext_len in B1; destruct A2; lia|].
    eapply wp_lget; [rewrite lset_other by auto; apply lset_same; destruct B2; lia|].
    change (wp (Call "stdlib.sub-int" :: js) (mkcfg (lset (lset ls hi (VI64 (z / 2 ^ 64 mod 2 ^ 64))) lo (VI64 (z mod 2 ^ 64))) (rev (nws 0 ++ nws z) ++ k) st) Q).
    eapply does_wp; [apply single_does; [exact HE|exact T1]|unfold fun_arity; erewrite (std_fun _ HE) by reflexivity; reflexivity|exact Herr|].
    destruct (arith1 OSub TInt z) as [v|c0] eqn:Ear; cbn in Hf; injection Hf as <-.
    * intros ws Hws Htv. apply (HW _ (shost st) (lset (lset ls hi (VI64 (z / 2 ^ 64 mod 2 ^ 64))) lo (VI64 (z mod 2 ^ 64))) st ws eq_refl);
        [|apply below_refl|reflexivity|reflexivity|exact Hws|exact Htv].
      eapply lkeep_trans0; [apply lkeep_lset; intros Hl; apply B3; eapply lext_live; eauto|apply lkeep_lset; exact A3].
    * intros st' Hst'. eapply HA; [reflexivity|exact Hst'].
  + injection Es as <- <-. cbn [app nws rev]. apply wp_const. change (VI32 1 :: VI64 (z / 2 ^ 64 mod 2 ^ 64) :: VI64 (z mod 2 ^ 64) :: k) with (rev [VI32 1] ++ VI64 (z / 2 ^ 64 mod 2 ^ 64) :: VI64 (z mod 2 ^ 64) :: k).
    cbn [wrong1] in Hwr. apply Z.eqb_neq in Hwr. assert (Ear : arith1 OSub TUInt z = inr err_underflow).
    { unfold arith1, exact. destruct (fitsb TUInt (- z)) eqn:Hfi; auto. apply (fitsb_range TUInt) in Hfi; [|reflexivity]. cbn [in_range] in *. unfold is_u128 in *. lia. }
    rewrite Ear in Hf. cbn in Hf. injection Hf as <-.
    eapply wp_call; [unfold fun_arity; erewrite (std_fun _ HE) by reflexivity; reflexivity|]. cbn [cstack clocals cstore rev app length firstn skipn].
    apply runtime_error_wp; auto. unfold qcall, cont. cbn [ret_call]. eapply HA; [reflexivity|]. cbn [sglob with_glob]. destruct Herr as (w & Hw'). eapply gget_set. exact Hw'.
Qed.

Lemma widens_nums ts t : is_num t = true -> forallb (fun a => widens a t) ts = true -> ts = repeat t (length ts).
Proof. intros Ht. induction ts as [|a ts IH]; intros H; [reflexivity|]. cbn [forallb] in H. apply andb_prop in H as (H1 & H2). cbn [length repeat]. rewrite <- IH by exact H2. f_equal. apply widens_num; auto. Qed.

Lemma fn_ok g t ts pre l c l' : wt_fn sig g t ts = true -> (match g with FArith _ => (length ts <= 2)%nat | _ => True end) ->
  visit_fn g (fn_ret sig g t) t ts pre l = (c, l') -> lwf l -> applies t ts (apply_fn true funs g t) c l l'.
Proof.
  intros Hwt Har HC Hw. destruct g as [kd f|w|o|any]; cbn [wt_fn visit_fn apply_fn fn_ret] in *.
  - destruct (assoc f sig) as [[ps tr]|] eqn:Es; [|discriminate]. repeat match goal with H : _ && _ = true |- _ => apply andb_prop in H as (? & ?) end.
    unfold ret_of, visit_call in HC. rewrite Es in HC. cbn [snd] in HC. match goal with H : negb (has_in_memory tr) = true |- _ => apply negb_true_iff in H; rename H into Hm end. rewrite Hm in HC.
    eapply call_applies; try eassumption. apply Nat.eqb_eq. assumption.
  - injection HC as <- <-. split; [apply lext_refl; exact Hw|]. intros F sp vs ws st rs js ls k Q HK HL Hr Hty Hf HA HW.
    cbn [apply_fn] in Hf. unfold unless in Hf. cbn [andb] in Hf. destruct (word_wrong w vs) eqn:Hwr; [discriminate|]. unfold bind in Hf. destruct (word_sem w vs) as [x|] eqn:Hsem; [|discriminate]. cbn [of_opt ret] in Hf.
    eapply word_wp; [exact HE|exact Hwt|exact Hr|exact Hty|exact Hsem|exact Hwr|eapply k_err; exact HK|]. unfold of_opt, ret in Hf. destruct x as [v|c]; cbn [of_sum] in Hf; unfold ret, abort in Hf; injection Hf as <-.
    + intros ws' Hws Htv. apply (HW v (shost st) ls st ws' eq_refl); [apply lkeep_refl|apply below_refl|reflexivity|reflexivity|exact Hws|exact Htv].
    + intros st' Hst'. eapply HA; [reflexivity|exact Hst'].
  - apply andb_prop in Hwt as (Hwt & Hne). apply andb_prop in Hwt as (Ht & Hws). rewrite (widens_nums _ _ Ht Hws) in *. destruct ts as [|t1 [|t2 [|t3 ts]]]; cbn [length repeat] in *; try discriminate; try lia.
    + apply arith1_applies; auto.
    + injection HC as <- <-. apply arith2_applies; auto.
  - injection HC as <- <-. apply andb_prop in Hwt as (Hwt & Hne). apply andb_prop in Hwt as (Ht & Hbs). split; [apply lext_refl; exact Hw|]. intros F sp vs ws st rs js ls k Q HK HL Hr Hty Hf HA HW.
    cbn [apply_fn] in Hf. destruct (rep_bools _ _ _ _ _ Hbs Hr) as (bs & -> & -> & Hlb). rewrite bools_all in Hf. cbn [option_map of_opt] in Hf. unfold of_opt, ret in Hf. injection Hf as <-.
    destruct t; try discriminate. rewrite <- map_rev. destruct (rev bs) as [|y xs] eqn:Er.
    { apply (f_equal (@length bool)) in Er. rewrite rev_length in Er. destruct ts; [discriminate|]. cbn [length] in *. lia. }
    assert (Hlx : (length ts - 1 = length xs)%nat) by (apply (f_equal (@length bool)) in Er; rewrite rev_length in Er; cbn [length] in Er; lia). rewrite Hlx. cbn [map app].
    apply bool_run. rewrite fold_bool_spec, <- Er, existsb_rev, forallb_rev.
    refine (HW _ (shost st) ls st [VI32 (b2z _)] eq_refl _ _ _ _ _ _); [apply lkeep_refl|apply below_refl|reflexivity|reflexivity| |exact I].
    intros m P. cbn [rep]. destruct (if any then _ else _); reflexivity.
Qed.
End Fn.
