(** * Correctness of emitted expression code: arithmetic and other words (proof support) *)
From Coq Require Import ZArith String List Bool Lia.
Import ListNotations.
From Verif Require Import Wasm Std StdEnv WasmLogic WasmTac Mem MemFacts Bytes Spec SpecBytes SpecUtf8 ArithProofs BitProofs ArithFacts ArithSpecs BuffProofs PropBytes Clar Rep RepFacts Emit EmitFacts EmitProofs Equal EqualProofs
  CallProofs ArgProofs Ast SpecLang Lang Typing LangFacts LangBase LangCtl LangEarly LangMem LangSeq LangList LangConcat LangTuple.
Open Scope string_scope.
Open Scope list_scope.
Open Scope Z_scope.

(** the words of a 128-bit integer *)
Definition nws (z : Z) : list val := [VI64 (z mod 2 ^ 64); VI64 (z / 2 ^ 64 mod 2 ^ 64)].
Lemma i128_nws z : i128 z = nws z.
Proof.
  unfold i128, u128, nws. change (2 ^ 128) with (2 ^ 64 * 2 ^ 64). rewrite Z.rem_mul_r by lia.
  replace (z mod 2 ^ 64 + 2 ^ 64 * (z / 2 ^ 64 mod 2 ^ 64)) with (z mod 2 ^ 64 + (z / 2 ^ 64 mod 2 ^ 64) * 2 ^ 64) by ring.
  rewrite Z.mod_add, Z.div_add, Z.mod_mod by lia. rewrite (Z.div_small (z mod 2 ^ 64)) by (apply Z.mod_pos_bound; lia). reflexivity.
Qed.
Lemma u128_nws z : is_u128 z -> u128 z = nws z.
Proof.
  intros H. rewrite <- i128_nws. unfold i128. rewrite Z.mod_small by exact H. reflexivity.
Qed.
Definition in_range (t : ty) (z : Z) : Prop := match t with TInt => is_i128 z | _ => is_u128 z end.
Lemma fitsb_range t z : is_num t = true -> fitsb t z = true <-> in_range t z.
Proof. destruct t; try discriminate; intros _; cbn [fitsb in_range]; unfold is_i128, is_u128; rewrite andb_true_iff, Z.leb_le, Z.ltb_lt; reflexivity. Qed.
Lemma rep_nws m P t z : is_num t = true -> rep m P t (num t z) (nws z).
Proof. destruct t; try discriminate; reflexivity. Qed.
Lemma rep_num_inv m P t v ws : is_num t = true -> rep m P t v ws -> exists z, v = num t z /\ ws = nws z.
Proof. destruct t; try discriminate; intros _; destruct v; cbn [rep]; try contradiction; intros ->; eexists; split; reflexivity. Qed.
Lemma type_num t z : is_num t = true -> in_range t z -> has_type t (num t z).
Proof. destruct t; try discriminate; auto. Qed.
Lemma type_num_inv t z : is_num t = true -> has_type t (num t z) -> in_range t z.
Proof. destruct t; try discriminate; auto. Qed.
Lemma num_of_num t z : is_num t = true -> num_of t (num t z) = Some z.
Proof. destruct t; try discriminate; reflexivity. Qed.
Lemma widens_num a t : is_num t = true -> widens a t = true -> a = t.
Proof. destruct t; try discriminate; destruct a; try discriminate; reflexivity. Qed.

(** ** Order of strings *)
Lemma lexb_lt x : forall y, lexb x y = true <-> lex_lt x y.
Proof.
  induction x as [|a x IH]; intros [|b y]; cbn; (split; [intros H|intros H; inversion H; subst]); try discriminate; try reflexivity.
  - apply lex_nil.
  - destruct (Z.ltb_spec a b); [apply lex_head; auto|]. cbn in H. apply andb_prop in H as (H1 & H2). apply Z.eqb_eq in H1. subst. apply lex_tail. apply IH. exact H2.
  - rewrite (proj2 (Z.ltb_lt _ _) ltac:(eassumption)). reflexivity.
  - rewrite Z.eqb_refl. rewrite (proj2 (IH _) ltac:(eassumption)). apply orb_true_r.
Qed.
Lemma lexb_app4 a0 a1 a2 a3 b0 b1 b2 b3 x y : lexb (a0 :: a1 :: a2 :: a3 :: x) (b0 :: b1 :: b2 :: b3 :: y) =
  (a0 <? b0) || (a0 =? b0) && ((a1 <? b1) || (a1 =? b1) && ((a2 <? b2) || (a2 =? b2) && ((a3 <? b3) || (a3 =? b3) && lexb x y))).
Proof. reflexivity. Qed.
Lemma be4 a : be_bytes 4 a = [a / 16777216 mod 256; a / 65536 mod 256; a / 256 mod 256; a mod 256].
Proof. unfold be_bytes. cbn [le_bytes rev app]. rewrite !Z.div_div by lia. reflexivity. Qed.
Lemma lex4 a b (R : bool) : 0 <= a < 2 ^ 32 -> 0 <= b < 2 ^ 32 ->
  (a / 16777216 mod 256 <? b / 16777216 mod 256) || (a / 16777216 mod 256 =? b / 16777216 mod 256) &&
   ((a / 65536 mod 256 <? b / 65536 mod 256) || (a / 65536 mod 256 =? b / 65536 mod 256) &&
    ((a / 256 mod 256 <? b / 256 mod 256) || (a / 256 mod 256 =? b / 256 mod 256) &&
     ((a mod 256 <? b mod 256) || (a mod 256 =? b mod 256) && R))) = (a <? b) || (a =? b) && R.
Proof.
  intros Ha Hb. change (2 ^ 32) with 4294967296 in *.
  assert (H : forall c, 0 <= c < 4294967296 -> exists c0 c1 c2 c3, c / 16777216 mod 256 = c3 /\ c / 65536 mod 256 = c2 /\ c / 256 mod 256 = c1 /\ c mod 256 = c0 /\
    c = c0 + 256 * c1 + 65536 * c2 + 16777216 * c3 /\ 0 <= c0 < 256 /\ 0 <= c1 < 256 /\ 0 <= c2 < 256 /\ 0 <= c3 < 256).
  { intros c Hc. do 4 eexists. split; [reflexivity|]. split; [reflexivity|]. split; [reflexivity|]. split; [reflexivity|].
    repeat split; try (apply Z.mod_pos_bound; lia). zlia. }
  destruct (H a Ha) as (a0 & a1 & a2 & a3 & -> & -> & -> & -> & A & ?). destruct (H b Hb) as (b0 & b1 & b2 & b3 & -> & -> & -> & -> & B & ?). clear H.
  destruct (Z.ltb_spec a3 b3), (Z.eqb_spec a3 b3), (Z.ltb_spec a2 b2), (Z.eqb_spec a2 b2), (Z.ltb_spec a1 b1), (Z.eqb_spec a1 b1), (Z.ltb_spec a0 b0), (Z.eqb_spec a0 b0);
    try lia; cbn [andb orb]; destruct (Z.ltb_spec a b), (Z.eqb_spec a b); try lia; reflexivity.
Qed.
Lemma lexb_flat x : forall y, Forall scalar x -> Forall scalar y -> lexb (flat_map (be_bytes 4) x) (flat_map (be_bytes 4) y) = lexb x y.
Proof.
  induction x as [|a x IH]; intros [|b y] Hx Hy; cbn [flat_map]; rewrite ?be4; cbn [app]; try reflexivity.
  inversion Hx; subst. inversion Hy; subst. rewrite lexb_app4, IH by assumption. cbn [lexb]. fold lexb.
  rewrite lex4; [reflexivity| |]; unfold scalar in *; lia.
Qed.

Section Arith.
Context {HS : Type} {CH : chain HS} (E : env HS) (HE : has_std E) (rt : ty) (L : list (ty * value * Z)) (X : Z) (HX0 : 0 <= X).
Notation wp := (wp E).
Notation impl := (impl E rt L X).
Notation ctx := (ctx L X).
Notation sub_ok := (sub_ok E rt L X).
Notation impl_next := (impl_next E rt L X).
Notation impl_next1 := (impl_next1 E rt L X).
Notation impl_last := (impl_last E rt L X).
Notation impl_block := (impl_block E rt L X).
Notation impl_fr := (impl_fr E rt L X).
Notation impl_ext := (impl_ext E rt L X).
Ltac fr_of H := let P := fresh "P" in pose proof (impl_fr _ _ _ _ _ H) as P.
Ltac ext_of H E X := let W := fresh in
  match type of E with ?c ?d ?B ?l = _ =>
    assert (W : lwf l) by (assumption || (eapply lext_wf; eassumption));
    pose proof (impl_ext _ _ _ _ _ _ _ _ _ _ H E W) as X; clear W end.
Ltac lenl := repeat match goal with H : lext _ _ |- _ => apply lext_len in H | H : moved _ _ _ _ _ _ _ _ |- _ => apply m_ls, lkeep_len in H end; lia.
(** the call returns a representation of the value, or aborts with the code *)
Definition does (f : string) (args : list val) (st : store HS) (t : ty) (r : value + Z) : Prop :=
  match r with
  | inl v => exists ws, returns E f args st ws /\ (forall m P, rep m P t v ws) /\ has_type t v
  | inr c => aborts E f args st c
  end.

Lemma does_wp f args st t r : does f args st t r -> fun_arity E f = Some (length args) -> (exists w, gget (sglob st) "runtime-error-code" = Some w) ->
  forall js ls k Q,
  match r with
  | inl v => forall ws, (forall m P, rep m P t v ws) -> has_type t v -> wp js (mkcfg ls (rev ws ++ k) st) Q
  | inr c => forall st', gget (sglob st') "runtime-error-code" = Some (VI32 c) -> Q (OTrap TUnreachable st')
  end -> wp (Call f :: js) (mkcfg ls (rev args ++ k) st) Q.
Proof.
  intros HD HA (w & Hw) js ls k Q HQ. eapply wp_call; [exact HA|]. cbn [cstack clocals cstore].
  rewrite <- rev_length. rewrite firstn_app, firstn_all, Nat.sub_diag, app_nil_r, skipn_app, skipn_all, Nat.sub_diag, rev_involutive. cbn [app skipn].
  destruct r as [v|c]; cbn [does] in HD.
  - destruct HD as (ws & H1 & H2 & H3). eapply calls_wpf; [exact H1|]. unfold qcall, cont. cbn [ret_call]. apply HQ; auto.
  - eapply calls_wpf; [exact HD|]. unfold qcall, cont. cbn [ret_call]. apply HQ. cbn [sglob with_glob]. eapply gget_set. exact Hw.
Qed.

Lemma does_num f args st t z : is_num t = true -> in_range t z -> returns E f args st (nws z) -> does f args st t (inl (num t z)).
Proof. intros H1 H2 H3. exists (nws z). split; [exact H3|]. split; [intros; apply rep_nws; auto|apply type_num; auto]. Qed.
Lemma does_bool f args st b : returns E f args st (vbool b) -> does f args st TBool (inl (CBool b)).
Proof. intros H. exists (vbool b). split; [exact H|]. split; [reflexivity|exact I]. Qed.

Lemma does_exact f t a b r code st : is_num t = true -> in_range t a -> in_range t b ->
  (exact_or_aborts E f (match t with TInt => i128 | _ => u128 end) (in_range t) a b r code) -> does f (nws a ++ nws b) st t (exact t r code).
Proof.
  intros Ht Ha Hb H. destruct (H st) as (H1 & H2). unfold exact. destruct (fitsb t r) eqn:Hf.
  - apply fitsb_range in Hf; auto. specialize (H1 Hf). apply does_num; auto. destruct t; try discriminate; rewrite ?i128_nws, ?u128_nws in H1 by auto; exact H1.
  - assert (Hn : ~ in_range t r) by (rewrite <- fitsb_range by auto; rewrite Hf; discriminate). specialize (H2 Hn).
    destruct t; try discriminate; rewrite ?i128_nws, ?u128_nws in H2 by auto; exact H2.
Qed.

Lemma quot_range a b : is_i128 a -> b <> 0 -> ~ (a = - 2 ^ 127 /\ b = -1) -> is_i128 b -> is_i128 (Z.quot a b).
Proof.
  intros Ha Hb Hn Hb'. unfold is_i128 in *. rewrite DivProofs.quot_abs by auto.
  assert (H : 0 <= Z.abs a / Z.abs b <= Z.abs a) by (split; [apply Z.div_pos; lia|apply Z.div_le_upper_bound; nia]).
  assert (H2 : b <> -1 -> b <> 1 -> Z.abs a / Z.abs b <= 2 ^ 126).
  { intros. apply Z.div_le_upper_bound; [lia|]. change (2 ^ 127) with (2 * 2 ^ 126) in *. nia. }
  change (2 ^ 127) with (2 * 2 ^ 126) in *.
  destruct (Z.eq_dec b (-1)) as [->|]; [change (Z.abs (-1)) with 1 in *; rewrite Z.div_1_r in *; destruct (Z.ltb_spec a 0), (Z.ltb_spec (-1) 0); cbn [xorb]; lia|].
  destruct (Z.eq_dec b 1) as [->|]; [change (Z.abs 1) with 1 in *; rewrite Z.div_1_r in *; destruct (Z.ltb_spec a 0), (Z.ltb_spec 1 0); cbn [xorb]; lia|].
  specialize (H2 ltac:(auto) ltac:(auto)). destruct (xorb _ _); lia.
Qed.
Lemma rem_range a b : is_i128 a -> is_i128 b -> b <> 0 -> is_i128 (Z.rem a b).
Proof.
  intros Ha Hb Hn. unfold is_i128 in *. rewrite DivProofs.rem_abs by auto.
  assert (0 <= Z.abs a mod Z.abs b <= Z.abs a) by (split; [apply Z.mod_pos_bound; lia|apply Z.mod_le; lia]).
  pose proof (Z.mod_pos_bound (Z.abs a) (Z.abs b) ltac:(lia)). destruct (Z.ltb_spec a 0); lia.
Qed.
Lemma div_range_u a b : is_u128 a -> is_u128 b -> b <> 0 -> is_u128 (a / b).
Proof. unfold is_u128. intros Ha Hb Hn. split; [apply Z.div_pos; lia|]. assert (a / b <= a) by (apply Z.div_le_upper_bound; nia). lia. Qed.

Lemma arith2_does o t a b st : is_num t = true -> in_range t a -> in_range t b -> wrong2 o t a b = false ->
  does (arith_fun o t) (nws a ++ nws b) st t (arith2 o t a b).
Proof.
  intros Ht Ha Hb Hw. destruct o; cbn [arith2].
  - apply does_exact; auto. destruct t; try discriminate; [apply p_add_int|apply p_add_uint]; auto.
  - apply does_exact; auto. destruct t; try discriminate; [apply p_sub_int; auto|apply p_sub_uint; auto].
    cbn [wrong2] in Hw. intros (H1 & H2 & H3). apply Z.ltb_lt in H1, H3. apply Z.eqb_eq in H2. rewrite H1, H2, H3 in Hw. discriminate.
  - apply does_exact; auto. destruct t; try discriminate; [apply p_mul_int; auto|apply p_mul_uint; auto].
    cbn [wrong2] in Hw. intros (H1 & H2 & H3). apply Z.eqb_eq in H1. apply Z.eqb_neq in H2, H3. rewrite H1, H2, H3 in Hw. discriminate.
  - destruct t; try discriminate; cbn [in_range] in *.
    + destruct (p_div_int E HE a b st Ha Hb) as (H1 & H2 & H3). rewrite !i128_nws in *. destruct (Z.eqb_spec b 0) as [|Hn]; [exact (H3 e)|].
      unfold exact. destruct (fitsb TInt (Z.quot a b)) eqn:Hf; rewrite ?(fitsb_range TInt) in Hf by reflexivity.
      * assert (~ (a = - 2 ^ 127 /\ b = -1)). { intros (-> & ->). vm_compute in Hf. destruct Hf as (_ & Hf). discriminate. }
        specialize (H1 Hn H). apply does_num; auto.
      * apply H2.
        -- destruct (Z.eq_dec a (- 2 ^ 127)) as [|Hx]; auto. exfalso. rewrite <- not_true_iff_false, fitsb_range in Hf by reflexivity. apply Hf. apply quot_range; auto. tauto.
        -- destruct (Z.eq_dec b (-1)) as [|Hx]; auto. exfalso. rewrite <- not_true_iff_false, fitsb_range in Hf by reflexivity. apply Hf. apply quot_range; auto. tauto.
    + destruct (p_div_uint E HE a b st Ha Hb) as (H1 & H2). rewrite (u128_nws a), (u128_nws b) in * by auto. destruct (Z.eqb_spec b 0) as [|Hn]; [exact (H2 e)|].
      specialize (H1 Hn). pose proof (div_range_u _ _ Ha Hb Hn) as HR. unfold exact. rewrite (proj2 (fitsb_range TUInt _ eq_refl) HR).
      rewrite ?u128_nws in H1 by auto. apply does_num; auto.
Qed.
Lemma arith_arity o t : fun_arity E (arith_fun o t) = Some 4%nat.
Proof. unfold fun_arity. destruct o, t; erewrite (std_fun _ HE) by reflexivity; reflexivity. Qed.

(** ** [+], [-], [*], [/] *)
Lemma arith_ext G o t ss : forall d B l cs l', arith_rest (arith_fun o t) (map (@s_c HS) ss) d B l = (cs, l') -> Forall (sub_ok G) ss -> lwf l -> lext l l'.
Proof.
  induction ss as [|s ss IH]; intros d B l cs l' H Hs Hw; cbn in H.
  - injection H as <- <-. apply lext_refl; auto.
  - destruct (s_c s d B l) as [c l1] eqn:Ec. destruct (arith_rest _ (map (@s_c HS) ss) d B l1) as [cs' l2] eqn:Eb. injection H as <- <-.
    inversion Hs as [|? ? H1 H2]; subst. unfold LangCtl.sub_ok in H1. ext_of H1 Ec Xc. eapply lext_trans; eauto. eapply IH; eauto. eapply lext_wf; eauto.
Qed.

Lemma mapM_done {A} (ms : list (M HS A)) h : done (mapM ms) h = true -> exists vs h', mapM ms h = Some (Done vs h').
Proof. unfold done. destruct (mapM ms h) as [[vs h'| |]|]; try discriminate. eauto. Qed.

Lemma arith_run G B r F l ls st sp n d k js Q rs o t : ctx G B r F l ls st sp n -> exits rt d F l ls st sp n Q rs ->
  (forall v h ls2 st2 sp2 ws, rs = Done v h -> gives F t v h l ls st sp n ls2 st2 sp2 ws -> wp js (mkcfg ls2 (rev ws ++ k) st2) Q) ->
  is_num t = true ->
  forall ss l1 cs l2, arith_rest (arith_fun o t) (map (@s_c HS) ss) d B l1 = (cs, l2) -> Forall (sub_ok G) ss -> Forall (fun s => s_t s = t) ss ->
  lext l l1 -> (llen l2 <= length ls)%nat ->
  forall ls1 st1 sp1 n1 a, moved l ls st sp n1 ls1 st1 sp1 -> n1 + sfr ss <= n -> in_range t a ->
    foldA_ok o t (num t a) (map (fun s => s_m s r) ss) (shost st1) = true ->
    bind (mapM (map (fun s => s_m s r) ss)) (foldA o t (num t a)) (shost st1) = Some rs ->
    wp (cs ++ js) (mkcfg ls1 (rev (nws a) ++ k) st1) Q.
Proof.
  intros HC HX HW Ht. induction ss as [|s ss IH]; intros l1 cs l2 H Hs Hb Xl HL ls1 st1 sp1 n1 a HM Hn Ha Hok Hm.
  - cbn in H. injection H as <- <-. cbn in Hm. injection Hm as <-. cbn [app]. cbn [sfr fold_right] in Hn.
    apply (HW _ _ ls1 st1 sp1 (nws a) eq_refl). constructor; [eapply moved_more; eauto; lia|apply rep_nws; auto|apply type_num; auto|reflexivity].
  - cbn [map arith_rest] in H. destruct (s_c s d B l1) as [c l3] eqn:Ec. destruct (arith_rest _ (map (@s_c HS) ss) d B l3) as [cr l4] eqn:Eb. injection H as <- <-.
    inversion Hs as [|? ? H1 H2]; subst. inversion Hb as [|? ? H3 H4]; subst. unfold LangCtl.sub_ok in H1. ext_of H1 Ec Xc.
    pose proof (arith_ext _ _ _ _ _ _ _ _ _ Eb H2 (lext_wf _ _ Xc)) as Xd. assert (X3 : lext l l3) by (eapply lext_trans; eauto).
    fr_of H1. pose proof (sfr_nonneg _ _ _ _ _ _ H2) as P2. cbn [sfr fold_right] in Hn. fold (sfr ss) in Hn.
    rewrite <- !app_assoc. cbn [map mapM] in Hm. rewrite bind_assoc in Hm. cbn [map foldA_ok] in Hok.
    set (ms := map (fun s0 => s_m s0 r) ss) in *.
    set (ok := fun x h' => match num_of (s_t s) (num (s_t s) a), num_of (s_t s) x with
          | Some a, Some b => negb (wrong2 o (s_t s) a b) && match arith2 o (s_t s) a b with inl r0 => foldA_ok o (s_t s) r0 ms h' | inr _ => done (mapM ms) h' end
          | _, _ => true end).
    assert (Hm' : bind (s_m s r) (fun x h' => if ok x h' then bind (bind (mapM ms) (fun vs => ret (x :: vs))) (foldA o (s_t s) (num (s_t s) a)) h' else None) (shost st1) = Some rs).
    { unfold bind at 1. unfold bind at 1 in Hm. destruct (s_m s r (shost st1)) as [[x h'| |]|]; auto. fold (ok x h') in Hok. rewrite Hok. exact Hm. }
    eapply (impl_next _ _ _ _ _ _ _ _ _ _ H1 Ec);
        [exact HC|exact HM|lia|exact Xl|eapply ctx_moved; [exact HC|exact Xl|exact HM|lia]|exact Hm'|exact HX|lenl|].
    intros x h ls2 st2 sp2 wx HG HM2 Hm2 HLx. cbv beta in Hm2. clear Hm Hm' Hok. destruct (ok x (shost st2)) eqn:Hok; [|discriminate].
    destruct (rep_num_inv _ _ _ _ _ Ht (g_rep _ _ _ _ _ _ _ _ _ _ _ _ _ HG)) as (b & -> & ->). pose proof (type_num_inv _ _ Ht (g_type _ _ _ _ _ _ _ _ _ _ _ _ _ HG)) as Hbr.
    unfold ok in Hok. rewrite !num_of_num in Hok by exact Ht. apply andb_prop in Hok as (Hwr & Hok). apply negb_true_iff in Hwr.
    rewrite bind_assoc in Hm2.
    assert (Hm3 : bind (mapM ms) (fun vs => bind (of_sum (arith2 o (s_t s) a b)) (fun r0 => foldA o (s_t s) r0 vs)) (shost st2) = Some rs).
    { erewrite <- Hm2. unfold bind at 1 3. destruct (mapM ms (shost st2)) as [[vs h'| |]|]; auto. unfold bind at 2. cbn [ret foldA]. rewrite !num_of_num by exact Ht. reflexivity. }
    cbn [app]. rewrite app_assoc, <- rev_app_distr.
    eapply does_wp; [apply arith2_does; [exact Ht|exact Ha|exact Hbr|exact Hwr]|apply arith_arity| |].
    { destruct (c_err _ _ _ _ _ _ _ _ _ _ _ HC) as (w & Hw). exists w. rewrite (m_glob _ _ _ _ _ _ _ _ HM2) by discriminate. exact Hw. }
    destruct (arith2 o (s_t s) a b) as [v|c0] eqn:Ear.
    + intros ws Hws Hty. destruct (rep_num_inv _ _ _ _ _ Ht (Hws (smem st2) (fun _ => True))) as (y & -> & ->).
      eapply (IH l3 cr l4 Eb H2 H4 X3 HL ls2 st2 sp2 (n1 + s_fr s) y HM2 ltac:(lia) (type_num_inv _ _ Ht Hty) Hok).
      erewrite <- Hm3. unfold bind at 1 2. destruct (mapM ms (shost st2)) as [[vs h'| |]|]; auto.
    + intros st' Hst'. destruct (mapM_done _ _ Hok) as (vs & h' & Hd). unfold bind at 1 in Hm3. rewrite Hd in Hm3. cbn in Hm3. injection Hm3 as <-.
      exact (proj1 HX _ Hst').
Qed.

Lemma single_does a st : in_range TInt a -> does "stdlib.sub-int" (nws 0 ++ nws a) st TInt (arith1 OSub TInt a).
Proof.
  intros Ha. apply (does_exact "stdlib.sub-int" TInt 0 a (- a) err_underflow st eq_refl); [split; reflexivity || discriminate|exact Ha|].
  replace (- a) with (0 - a) by lia. apply p_sub_int; auto. split; reflexivity || discriminate.
Qed.

Lemma arith_ok_impl G o t fa a ma ss : is_num t = true -> impl G t fa a ma -> Forall (sub_ok G) ss -> Forall (fun s => s_t s = t) ss ->
  impl G t (fa + sfr ss) (e_arith o t a (map (@s_c HS) ss))
    (fun r => bind (ma r) (fun v => let ms := map (fun s => s_m s r) ss in
       unless true (fun h => negb (arith_ok o t v ms h)) (bind (mapM ms) (fun vs => arithM o t v vs)))).
Proof.
  intros Ht HA Hs Hb. fr_of HA. pose proof (sfr_nonneg _ _ _ _ _ _ Hs) as P2. split; [lia|].
  intros d B l code l' HC Hw. unfold e_arith in HC. destruct (a d B l) as [ca l1] eqn:Ea. ext_of HA Ea Xa.
  destruct ss as [|s ss].
  - cbn [map] in HC. destruct (arith_single o t l1) as [cs l2] eqn:Es. injection HC as <- <-.
    assert (Xs : lext l1 l2).
    { unfold arith_single in Es. destruct o; try (injection Es as <- <-; apply lext_refl; eapply lext_wf; eauto). destruct t; try (injection Es as <- <-; apply lext_refl; eapply lext_wf; eauto).
      destruct (add_local T64 l1) as [lo l3] eqn:E1. destruct (add_local T64 l3) as [hi l4] eqn:E2. injection Es as <- <-.
      destruct (add_ok _ _ _ _ E1 (lext_wf _ _ Xa)) as (A1 & A2 & A3). destruct (add_ok _ _ _ _ E2 (lext_wf _ _ A1)) as (B1 & B2 & B3). eapply lext_trans; eauto. }
    split; [eapply lext_trans; eauto|]. intros F r js ls k st sp Q rs Hm HC HL HX HW. rewrite <- !app_assoc.
    eapply (impl_next _ _ _ _ _ _ _ _ _ _ HA Ea);
      [exact HC|eapply moved_refl; eauto|lia|apply lext_refl; auto|eapply ctx_less; [exact HC|lia]|exact Hm|exact HX|lenl|].
    intros v h ls1 st1 sp1 ws HG HM1 Hm1 HL1. cbv beta in Hm1. clear Hm.
    destruct (rep_num_inv _ _ _ _ _ Ht (g_rep _ _ _ _ _ _ _ _ _ _ _ _ _ HG)) as (z & -> & ->). pose proof (type_num_inv _ _ Ht (g_type _ _ _ _ _ _ _ _ _ _ _ _ _ HG)) as Hz.
    cbn [map mapM arith_ok] in Hm1. unfold unless in Hm1. rewrite num_of_num in Hm1 by exact Ht. cbn [andb] in Hm1. rewrite negb_involutive in Hm1.
    destruct (wrong1 o t z) eqn:Hwr; [discriminate|]. cbn in Hm1. rewrite num_of_num in Hm1 by exact Ht.
    assert (HID : arith1 o t z = inl (num t z) -> wp js (mkcfg ls1 (rev (nws z) ++ k) st1) Q).
    { intros He. rewrite He in Hm1. injection Hm1 as <-. apply (HW _ _ ls1 st1 sp1 (nws z) eq_refl). destruct HG as [G1 G2 G3 G4]. constructor; auto. eapply moved_more; eauto. lia. }
    assert (Herr : exists w, gget (sglob st1) "runtime-error-code" = Some w).
    { destruct (c_err _ _ _ _ _ _ _ _ _ _ _ HC) as (w & Hw'). exists w. rewrite (m_glob _ _ _ _ _ _ _ _ HM1) by discriminate. exact Hw'. }
    destruct o; cbn [arith_single] in Es; try (injection Es as <- <-; cbn [app]; apply HID; reflexivity).
    destruct t; try discriminate.
    + destruct (add_local T64 l1) as [lo l3] eqn:E1. destruct (add_local T64 l3) as [hi l4] eqn:E2. injection Es as <- <-.
      destruct (add_ok _ _ _ _ E1 (lext_wf _ _ Xa)) as (A1 & A2 & A3). destruct (add_ok _ _ _ _ E2 (lext_wf _ _ A1)) as (B1 & B2 & B3).
      cbn [app nws rev]. apply wp_lset. apply wp_lset. apply wp_const. apply wp_const.
      assert (Hne : lo <> hi) by (intros ->; auto).
      assert (Hlen : length ls1 = length ls) by lenl.
      eapply wp_lget; [apply lset_same; rewrite lset_len; apply lext_len in B1; destruct A2; lia|].
      eapply wp_lget; [rewrite lset_other by auto; apply lset_same; destruct B2; lia|].
      change (wp (Call "stdlib.sub-int" :: js) (mkcfg (lset (lset ls1 hi (VI64 (z / 2 ^ 64 mod 2 ^ 64))) lo (VI64 (z mod 2 ^ 64))) (rev (nws 0 ++ nws z) ++ k) st1) Q).
      eapply does_wp; [apply single_does; exact Hz|unfold fun_arity; erewrite (std_fun _ HE) by reflexivity; reflexivity|exact Herr|].
      cbn [num] in Hm1. destruct (arith1 OSub TInt z) as [v|c0] eqn:Ear; cbn in Hm1; injection Hm1 as <-.
      * intros ws Hws Hty. apply (HW _ _ (lset (lset ls1 hi (VI64 (z / 2 ^ 64 mod 2 ^ 64))) lo (VI64 (z mod 2 ^ 64))) st1 sp1 ws eq_refl). constructor; [|apply Hws|exact Hty|reflexivity].
        eapply moved_more; [|instantiate (1 := 0 + fa); cbn [sfr fold_right]; lia]. eapply moved_ls'; [exact HM1|exact Xa|].
        eapply lkeep_trans0; [apply lkeep_lset; intros Hl; apply B3; eapply lext_live; eauto|apply lkeep_lset; exact A3].
      * intros st' Hst'. apply HX. exact Hst'.
    + injection Es as <- <-. cbn [app nws rev]. apply wp_const. change (VI32 1 :: VI64 (z / 2 ^ 64 mod 2 ^ 64) :: VI64 (z mod 2 ^ 64) :: k) with (rev [VI32 1] ++ VI64 (z / 2 ^ 64 mod 2 ^ 64) :: VI64 (z mod 2 ^ 64) :: k).
      cbn [wrong1] in Hwr. apply Z.eqb_neq in Hwr. assert (Ear : arith1 OSub TUInt z = inr err_underflow).
      { unfold arith1, exact. destruct (fitsb TUInt (- z)) eqn:Hf; auto. apply (fitsb_range TUInt) in Hf; [|reflexivity]. cbn [in_range] in *. unfold is_u128 in *. lia. }
      cbn [num] in Hm1. rewrite Ear in Hm1. cbn in Hm1. injection Hm1 as <-.
      eapply wp_call; [unfold fun_arity; erewrite (std_fun _ HE) by reflexivity; reflexivity|]. cbn [cstack clocals cstore rev app length firstn skipn].
      apply runtime_error_wp; auto. unfold qcall, cont. cbn [ret_call]. apply HX. cbn [sglob with_glob]. destruct Herr as (w & Hw'). eapply gget_set. exact Hw'.
  - remember (s :: ss) as ss0 eqn:Hss.
    assert (HC' : (let '(cr, l) := arith_rest (arith_fun o t) (map (@s_c HS) ss0) d B l1 in (ca ++ cr, l)) = (code, l')) by (subst ss0; exact HC).
    assert (HA1 : forall v (ms : list (M HS value)) h, length ms = length ss0 -> arith_ok o t v ms h = foldA_ok o t v ms h) by (intros v [|m0 ms] h Hl; [subst ss0; discriminate|reflexivity]).
    assert (HA2 : forall v vs, length vs = length ss0 -> arithM (HS := HS) o t v vs = foldA o t v vs) by (intros v [|m0 ms] Hl; [subst ss0; discriminate|reflexivity]).
    clear HC Hss s ss. destruct (arith_rest _ (map (@s_c HS) ss0) d B l1) as [cr l2] eqn:Eb. injection HC' as <- <-.
    pose proof (arith_ext _ _ _ _ _ _ _ _ _ Eb Hs (lext_wf _ _ Xa)) as Xd.
    split; [eapply lext_trans; eauto|]. intros F r js ls k st sp Q rs Hm HC HL HX HW. rewrite <- !app_assoc.
    eapply (impl_next _ _ _ _ _ _ _ _ _ _ HA Ea);
      [exact HC|eapply moved_refl; eauto|lia|apply lext_refl; auto|eapply ctx_less; [exact HC|lia]|exact Hm|exact HX|lenl|].
    intros v h ls1 st1 sp1 ws HG HM1 Hm1 HL1. cbv beta zeta in Hm1. clear Hm. unfold unless in Hm1. cbn [andb] in Hm1. rewrite HA1 in Hm1 by (rewrite map_length; reflexivity).
    destruct (foldA_ok o t v _ (shost st1)) eqn:Hok; [|discriminate]. cbn [negb] in Hm1.
    destruct (rep_num_inv _ _ _ _ _ Ht (g_rep _ _ _ _ _ _ _ _ _ _ _ _ _ HG)) as (z & -> & ->). pose proof (type_num_inv _ _ Ht (g_type _ _ _ _ _ _ _ _ _ _ _ _ _ HG)) as Hz.
    eapply (arith_run G B r F l ls st sp (fa + sfr ss0) d k js Q rs o t HC HX HW Ht ss0 l1 cr l2 Eb Hs Hb Xa HL ls1 st1 sp1 (0 + fa) z HM1 ltac:(lia) Hz Hok).
    erewrite <- Hm1. unfold bind at 1 2. destruct (mapM _ (shost st1)) as [[vs h'| |]|] eqn:Em; auto. rewrite HA2; auto.
    clear -Em. revert vs h' Em. generalize (shost st1). induction ss0 as [|s ss IH]; cbn [map mapM]; intros h0 vs h' H; unfold bind, ret in H.
    + injection H as <- <-. reflexivity.
    + destruct (s_m s r h0) as [[x h1| |]|]; try discriminate. destruct (mapM _ h1) as [[xs h2| |]|] eqn:E2; try discriminate. injection H as <- <-. cbn [length]. f_equal. eapply IH; eauto.
Qed.
End Arith.
