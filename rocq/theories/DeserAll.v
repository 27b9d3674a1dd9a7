(** * Deserialization of every type, and the word from-consensus-buff? (proof support) *)
From Coq Require Import ZArith String Ascii List Bool Lia Sorted.
Import ListNotations.
From Verif Require Import Wasm Std StdEnv WasmLogic WasmTac Spec Mem MemFacts Bytes SpecBytes SpecUtf8 Clar Rep RepFacts Emit CallProofs EmitFacts EmitProofs
  ReadProofs Equal EqualProofs NameProofs NameSearch SpecSer SpecSkip SkipProofs SerProofs PropSer SpecDeser Deser DeserProofs DeserSeq DeserCtl DeserList DeserTuple DeserTupleMain.
Open Scope string_scope.
Open Scope list_scope.
Open Scope Z_scope.

Section All.
Variable tab : list string -> Z.
Context {HS : Type} (E : env HS) (HE : has_std E).
Notation wp := (wp E).

Lemma deser_all t : deser_right tab E t.
Proof.
  induction t using ty_ind'.
  - intros _ l ol el rl c l' H Hw _ _ _ _ _ _. cbn [deserialize_from_memory] in H. assert (Hl' := f_equal snd H). cbn [snd] in Hl'. subst l'. split; [apply lext_refl; exact Hw|].
    intros js ls k st a e r K o Q _ _ _ _ _ _ _ HW. exfalso. destruct o as [[v bs]|]; [destruct HW as (HW & _); destruct v; exact HW|destruct HW as [[]|(? & [] & _)]].
  - apply (deser_int_ok tab E true).
  - apply (deser_int_ok tab E false).
  - apply deser_bool_ok.
  - apply deser_prin_ok; auto.
  - apply deser_prin_ok; eauto.
  - apply (deser_seq_ok tab E HE false).
  - apply (deser_seq_ok tab E HE true).
  - apply deser_utf8_ok. exact HE.
  - apply deser_list_ok; auto.
  - apply deser_opt_ok; auto.
  - apply deser_resp_ok; auto.
  - apply deser_tuple_ok; auto.
Qed.

(** the word *)
Definition result (m : mem) (t : ty) (a e : Z) (o : option (value * list Z)) (m' : mem) (P : Z -> Prop) (ws : list val) : Prop :=
  (exists v bs, readable t v bs /\ holds m a bs /\ a + zlen bs = e /\ agrees o v bs /\ rep m' P (TOpt t) (CSome v) ws) \/
  (rep m' P (TOpt t) CNone ws /\ match o with Some (_, bs) => a + zlen bs <> e | None => True end).

Lemma word_wp t l c l' ls stk (st : store HS) a n sp o : ty_ok t -> from_consensus_buff tab t l = (c, l') -> lwf l -> (llen l' <= length ls)%nat ->
  let size := call_stack_size (TOpt t) true true in
  gget (sglob st) "stack-pointer" = Some (VI32 sp) -> 0 <= a -> 0 <= n -> a + n <= sp -> a + n < 2 ^ 31 -> a + n < msize (smem st) -> sp + size <= msize (smem st) -> msize (smem st) < m32 ->
  tables tab (smem st) (fun x => x < sp \/ sp + size <= x) t -> want t (smem st) a (a + n) o ->
  wp c (mkcfg ls (VI32 n :: VI32 a :: stk) st) (fun out => exists ls' m' ws,
    out = ONormal (mkcfg ls' (rev ws ++ stk) (mkstore m' (gset (sglob st) "stack-pointer" (VI32 (sp + size))) (shost st))) /\
    lkeep l ls ls' /\ only_changes (smem st) m' sp size /\ result (smem st) t a (a + n) o m' (fun x => a <= x < a + n \/ sp <= x < sp + size) ws).
Proof.
  intros Hok H Hw Hn size Hg Ha Hn0 Hsp H31 Hin Hfr Hms HT HW. unfold from_consensus_buff, create_call_stack_local in H. rewrite add_one, !add_more in H. cbn [length app] in H.
  destruct (deserialize_from_memory tab t (llen l + 2) (llen l + 3) (llen l + 1) (more l [T32; T32; T32; T32])) as [cd l5] eqn:E5.
  assert (Hc := f_equal fst H). assert (Hl' := f_equal snd H). cbn [fst snd] in Hc, Hl'. subst c l'. clear H. fold size.
  set (l4 := more l [T32; T32; T32; T32]) in *. assert (L4 : lext l l4) by (apply more_ext; auto). set (w := llen l) in *.
  assert (LV : forall i, (i < 4)%nat -> live l4 (w + i)) by (intros i Hi; apply live_new; [auto|cbn; lia]).
  destruct (deser_all t Hok _ _ _ _ _ _ E5 (lext_wf _ _ L4) (LV 2%nat ltac:(lia)) (LV 3%nat ltac:(lia)) (LV 1%nat ltac:(lia)) ltac:(lia) ltac:(lia) ltac:(lia)) as (X1 & X2).
  pose proof (lext_len _ _ X1) as Hl5. assert (Hl4 : llen l4 = (w + 4)%nat) by (unfold l4; rewrite llen_more; reflexivity).
  pose proof (room_frame t Hok) as HR. pose proof (room_nonneg t Hok) as HR0. pose proof (size_nonneg t) as HS0.
  assert (Hsz : room t <= size). { unfold size, call_stack_size. cbn [get_type_size get_type_in_memory_size]. destruct (is_in_memory_type (TOpt t)); lia. }
  cbn [app]. apply wp_ltee. eapply wp_gget; [exact Hg|]. apply wp_ltee. apply wp_const. rewrite (Z.mod_small size) by lia. apply wp_add32; [lia|]. apply wp_gset. apply wp_lset. apply wp_ltee. eapply wp_lget; [lk|]. apply wp_add32; [lia|]. apply wp_lset.
  match goal with |- WasmLogic.wp _ _ (mkcfg ?x _ ?y) _ => set (ls1 := x); set (st1 := y) end.
  assert (Ll : length ls1 = length ls) by (unfold ls1; rewrite !lset_len; reflexivity).
  assert (K1 : lkeep l ls ls1). { split; [exact Ll|]. intros i Hi. apply live_lt in Hi. fold w in Hi. unfold ls1. rewrite !lset_other by lia. reflexivity. }
  assert (KK : forall ls2, lkeep (hide [(w + 2)%nat; (w + 1)%nat] l4) ls1 ls2 -> lkeep l ls ls2).
  { intros ls2 (K2 & K3). split; [congruence|]. intros i Hi. rewrite <- (proj2 K1 i Hi). apply K3. apply live_hide. split; [eapply lext_live; eauto|]. apply live_lt in Hi. fold w in Hi. cbn. lia. }
  eapply X2 with (a := a) (e := a + n) (r := sp) (o := o); [unfold ls1; lk|unfold ls1; lk|unfold ls1; lk|lia|unfold area; cbn [st1 smem with_glob]; lia|exact HT| |exact HW| |]; cbn [st1 smem with_glob].
  { intros y Hy. lia. }
  - intros ls2 m2 v bs ws r' (S1 & S2 & S3 & S4 & S5 & S6 & S7 & S8 & S9 & S10). pose proof (zlen_nonneg bs) as Hb.
    assert (G1 : nth_error ls2 (w + 3) = Some (VI32 (a + n))). { rewrite (lkeep_get _ _ _ _ S1). - unfold ls1. lk. - apply live_hide. split; [apply LV; lia|]. cbn. lia. }
    eapply wp_lget; [exact G1|]. eapply wp_lget; [exact S2|]. apply wp_r32. cbn [irel].
    assert (HLn : length (rev ws ++ [VI32 1]) = length (clar2wasm_ty (TOpt t))) by (rewrite app_length, rev_length, (rep_len _ _ _ _ _ S10); cbn [clar2wasm_ty length]; lia).
    apply wp_if_bool; intros Hc.
    + apply Z.eqb_eq in Hc. apply wp_nil. unfold qblock. cbn [exit_block cont]. unfold setstk. cbn [clocals cstack cstore].
      rewrite <- HLn. change (VI32 1 :: stk) with ([VI32 1] ++ stk). rewrite app_assoc, firstn_app, firstn_all, Nat.sub_diag. cbn [firstn]. rewrite app_nil_r, skipn_app, skipn_all, Nat.sub_diag. cbn [skipn app].
      apply wp_nil. exists ls2, m2, (VI32 1 :: ws). split; [cbn [rev]; reflexivity|]. split; [apply KK; exact S1|]. split; [eapply only_weaken; [exact S5|lia|lia]|].
      left. exists v, bs. split; [exact S6|]. split; [exact S7|]. split; [lia|]. split; [exact S9|]. cbn [rep]. exists ws. split; [reflexivity|]. eapply rep_weaken; [|exact S10]. cbv beta. intros x Hx. lia.
    + apply Z.eqb_neq in Hc.
      rewrite <- HLn. change (VI32 1 :: stk) with ([VI32 1] ++ stk). rewrite app_assoc, firstn_app, firstn_all, Nat.sub_diag. cbn [firstn]. rewrite app_nil_r, skipn_app, skipn_all, Nat.sub_diag. cbn [skipn app].
      change (rev ws ++ [VI32 1]) with (rev (VI32 1 :: ws)). rewrite <- (app_nil_r (rev (VI32 1 :: ws))). eapply wp_drops; [cbn [clar2wasm_ty length]; rewrite (rep_len _ _ _ _ _ S10); reflexivity|].
      rewrite <- (app_nil_r (placeholders _)). apply wp_placeholders. apply wp_nil. unfold qblock. cbn [exit_block cont]. unfold setstk. cbn [clocals cstack cstore]. rewrite app_nil_r. apply wp_nil.
      exists ls2, m2, (map zero_of (clar2wasm_ty (TOpt t))). split; [reflexivity|]. split; [apply KK; exact S1|]. split; [eapply only_weaken; [exact S5|lia|lia]|].
      right. split; [|destruct o as [[v' bs']|]; [destruct S9 as (-> & ->); lia|exact I]]. cbn [rep clar2wasm_ty map]. eexists. split; [reflexivity|]. apply zeros_typed.
  - intros ls2 m2 ws (S1 & S2 & (x & S3) & S4 & S5). subst o.
    assert (G1 : nth_error ls2 (w + 3) = Some (VI32 (a + n))). { rewrite (lkeep_get _ _ _ _ S2). - unfold ls1. lk. - apply live_hide. split; [apply LV; lia|]. cbn. lia. }
    eapply wp_lget; [exact G1|]. eapply wp_lget; [exact S3|]. apply wp_r32. cbn [irel].
    assert (HLn : length (rev ws ++ [VI32 0]) = length (clar2wasm_ty (TOpt t))) by (rewrite app_length, rev_length, <- (F2_len _ _ _ S5); cbn [clar2wasm_ty length]; lia).
    apply wp_if_bool; intros Hc.
    + apply wp_nil. unfold qblock. cbn [exit_block cont]. unfold setstk. cbn [clocals cstack cstore].
      rewrite <- HLn. change (VI32 0 :: stk) with ([VI32 0] ++ stk). rewrite app_assoc, firstn_app, firstn_all, Nat.sub_diag. cbn [firstn]. rewrite app_nil_r, skipn_app, skipn_all, Nat.sub_diag. cbn [skipn app].
      apply wp_nil. exists ls2, m2, (VI32 0 :: ws). split; [cbn [rev]; reflexivity|]. split; [apply KK; exact S2|]. split; [eapply only_weaken; [exact S4|lia|lia]|].
      right. split; [|exact I]. cbn [rep]. exists ws. split; [reflexivity|exact S5].
    + rewrite <- HLn. change (VI32 0 :: stk) with ([VI32 0] ++ stk). rewrite app_assoc, firstn_app, firstn_all, Nat.sub_diag. cbn [firstn]. rewrite app_nil_r, skipn_app, skipn_all, Nat.sub_diag. cbn [skipn app].
      change (rev ws ++ [VI32 0]) with (rev (VI32 0 :: ws)). rewrite <- (app_nil_r (rev (VI32 0 :: ws))). eapply wp_drops; [cbn [clar2wasm_ty length]; rewrite <- (F2_len _ _ _ S5); reflexivity|].
      rewrite <- (app_nil_r (placeholders _)). apply wp_placeholders. apply wp_nil. unfold qblock. cbn [exit_block cont]. unfold setstk. cbn [clocals cstack cstore]. rewrite app_nil_r. apply wp_nil.
      exists ls2, m2, (map zero_of (clar2wasm_ty (TOpt t))). split; [reflexivity|]. split; [apply KK; exact S2|]. split; [eapply only_weaken; [exact S4|lia|lia]|].
      right. split; [|exact I]. cbn [rep clar2wasm_ty map]. eexists. split; [reflexivity|]. apply zeros_typed.
Qed.
End All.
