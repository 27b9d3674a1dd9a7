(** * Correctness of emitted expression code: map (proof support) *)
From Coq Require Import ZArith String List Bool Lia.
Import ListNotations.
From Verif Require Import ReadProofs Wasm Std StdEnv WasmLogic WasmTac Mem MemFacts Bytes Spec SpecBytes SpecUtf8 ArithProofs Clar Rep RepFacts Emit EmitFacts EmitProofs Equal EqualProofs
  CallProofs ArgProofs Ast SpecLang Lang Typing LangFacts LangBase LangCtl LangEarly LangMem LangSeq LangList LangConcat LangArith LangSlice LangLaid LangIndex LangCopy LangCall LangFn LangFold.
Open Scope string_scope.
Open Scope list_scope.
Open Scope Z_scope.

Lemma unit_pos t : is_seq t = true -> ty_ok t -> 1 <= unit_size t.
Proof. intros Ht Hok. destruct t; try discriminate; cbn [unit_size ty_ok] in *; try lia. destruct Hok as (_ & Hok). apply size_pos in Hok. lia. Qed.

Lemma rep_up {HS} (F : Z -> Prop) (st st' : store HS) sp sp' t v ws : below sp (smem st) (smem st') -> sp <= sp' -> rep (smem st) (vis F sp) t v ws -> rep (smem st') (vis F sp') t v ws.
Proof. intros (H1 & H2) Hs Hr. eapply rep_frame; [exact H1| | |exact Hr]; [intros a (Ha & _); auto|intros a (Ha & Hb); split; [lia|exact Hb]]. Qed.

(** ** The sequences that are walked *)
Record mseq := mkms { q_t : ty; q_v : value; q_p : Z; q_o : nat }.
Definition seq_in (m : mem) (P : Z -> Prop) (q : mseq) : Prop :=
  is_seq (q_t q) = true /\ ty_ok (q_t q) /\ has_type (q_t q) (q_v q) /\ rep m P (q_t q) (q_v q) [VI32 (q_p q); VI32 (seq_len (q_v q) * unit_size (q_t q))].
Definition at_elem (ls : list val) (i : Z) (q : mseq) : Prop := nth_error ls (q_o q) = Some (VI32 (q_p q + i * unit_size (q_t q))).
Definition fewest (qs : list mseq) (c : Z) : Z := fold_left (fun m q => Z.min m (seq_len (q_v q))) qs c.

Lemma fewest_le qs : forall c, fewest qs c <= c.
Proof. induction qs as [|q qs IH]; intros c; cbn; [lia|]. specialize (IH (Z.min c (seq_len (q_v q)))). unfold fewest in IH. lia. Qed.
Lemma fewest_all qs : forall c, Forall (fun q => fewest qs c <= seq_len (q_v q)) qs.
Proof.
  induction qs as [|q qs IH]; intros c; constructor.
  - cbn. pose proof (fewest_le qs (Z.min c (seq_len (q_v q)))) as H. unfold fewest in H. lia.
  - exact (IH (Z.min c (seq_len (q_v q)))).
Qed.
Lemma fewest_one qs : forall c, fewest qs c = c \/ Exists (fun q => fewest qs c = seq_len (q_v q)) qs.
Proof.
  induction qs as [|q qs IH]; intros c; [left; reflexivity|]. change (fewest (q :: qs) c) with (fewest qs (Z.min c (seq_len (q_v q)))).
  destruct (IH (Z.min c (seq_len (q_v q)))) as [H|H]; [|right; apply Exists_cons_tl; exact H].
  rewrite H. destruct (Z.min_spec c (seq_len (q_v q))) as [(_ & ->)|(_ & ->)]; [left; reflexivity|right; apply Exists_cons_hd; reflexivity].
Qed.
Lemma fewest_nonneg qs : forall c, 0 <= c -> Forall (fun q => 0 <= seq_len (q_v q)) qs -> 0 <= fewest qs c.
Proof. induction qs as [|q qs IH]; intros c Hc H; cbn; [exact Hc|]. inversion H; subst. apply IH; [lia|assumption]. Qed.

Lemma seq_in_len m P q : seq_in m P q -> 0 <= seq_len (q_v q) <= seq_max (q_t q).
Proof. intros (H1 & _ & H2 & _). apply seq_type_len; assumption. Qed.
Lemma seq_in_below {HS} (F : Z -> Prop) (st st' : store HS) sp q : below sp (smem st) (smem st') -> seq_in (smem st) (vis F sp) q -> seq_in (smem st') (vis F sp) q.
Proof. intros Hb (H1 & H2 & H3 & H4). split; [exact H1|]. split; [exact H2|]. split; [exact H3|]. eapply rep_below; [exact Hb|exact H4]. Qed.

(** the elements at position [i] *)
Definition row (i : Z) (qs : list mseq) (vs : list value) : Prop := Forall2 (fun q x => seq_nth (q_v q) i = Some x) qs vs.
Definition rest (i : Z) (qs : list mseq) : list (list value) := map (fun q => skipn (Z.to_nat i) (seq_items (q_v q))) qs.

Lemma row_ex m P i qs : 0 <= i -> Forall (seq_in m P) qs -> Forall (fun q => i < seq_len (q_v q)) qs -> exists vs, row i qs vs.
Proof.
  intros Hi Hq. induction Hq as [|q qs H1 _ IH]; intros Hl; [exists []; constructor|]. inversion Hl as [|? ? L1 L2]; subst. destruct (IH L2) as (vs & Hvs).
  destruct H1 as (H1 & _ & H3 & _). pose proof (items_len _ _ H1 H3) as HI.
  destruct (nth_error (seq_items (q_v q)) (Z.to_nat i)) as [x|] eqn:Hx; [|apply nth_error_None in Hx; lia].
  exists (x :: vs). constructor; [|exact Hvs]. rewrite items_nth by exact Hi. exact Hx.
Qed.
Lemma rows_step i qs vs k : 0 <= i -> row i qs vs -> rows (S k) (rest i qs) = vs :: rows k (rest (i + 1) qs).
Proof.
  intros Hi Hr. assert (H : forallb (fun l : list value => match l with [] => false | _ => true end) (rest i qs) = true /\ flat_map (fun l => firstn 1 l) (rest i qs) = vs /\ map (@tl value) (rest i qs) = rest (i + 1) qs).
  { induction Hr as [|q x qs vs Hx _ (I1 & I2 & I3)]; [auto|]. unfold rest in *. cbn [map forallb flat_map]. rewrite (items_skip _ _ _ Hi Hx). split; [exact I1|]. split; [exact (f_equal (cons x) I2)|exact (f_equal (cons _) I3)]. }
  destruct H as (H1 & H2 & H3). cbn [rows]. rewrite H1, H2, H3. reflexivity.
Qed.
Lemma rows_stop m P i qs k : Forall (seq_in m P) qs -> Exists (fun q => i = seq_len (q_v q)) qs -> rows k (rest i qs) = [].
Proof.
  intros Hq He. destruct k as [|k]; [reflexivity|]. cbn [rows]. replace (forallb _ (rest i qs)) with false; [reflexivity|]. symmetry.
  induction He as [q qs Hl|q qs _ IH]; inversion Hq as [|? ? Q1 Q2]; subst; unfold rest in *; cbn [map forallb].
  - destruct Q1 as (H1 & _ & H3 & _). pose proof (items_len _ _ H1 H3) as HI. rewrite skipn_all2 by lia. reflexivity.
  - rewrite IH by exact Q2. apply andb_false_r.
Qed.

Section Map.
Context {HS : Type} {CH : chain HS} (E : env HS) (HE : has_std E) (sig : list (string * fsig)) (rt : ty) (L : list (ty * value * Z)) (X : Z) (HX0 : 0 <= X).
Hypothesis HO : scope_ok E.
Variable funs : string -> list value -> M HS value.
Hypothesis Hfuns : forall f ts tr, assoc f sig = Some (ts, tr) -> fun_ok E L X funs f ts tr.
Notation wp := (wp E).
Notation impl := (impl E rt L X).
Notation ctx := (ctx L X).
Notation sub_ok := (sub_ok E rt L X).
Notation impl_next := (impl_next E rt L X).
Notation impl_fr := (impl_fr E rt L X).
Notation impl_ext := (impl_ext E rt L X).
Ltac fr_of H := let P := fresh "P" in pose proof (impl_fr _ _ _ _ _ H) as P.
Ltac ext_of H E X := let W := fresh in
  match type of E with ?c ?d ?B ?l = _ =>
    assert (W : lwf l) by (assumption || (eapply lext_wf; eassumption));
    pose proof (impl_ext _ _ _ _ _ _ _ _ _ _ H E W) as X; clear W end.
Ltac lenl := repeat match goal with H : lext _ _ |- _ => apply lext_len in H | H : moved _ _ _ _ _ _ _ _ |- _ => apply m_ls, lkeep_len in H end; lia.

Lemma wp_divs32 is ls a b k (st : store HS) Q : 0 <= a < 2 ^ 31 -> (a = 0 \/ b < 2 ^ 31) -> 0 < b ->
  wp is (mkcfg ls (VI32 (a / b) :: k) st) Q -> wp (B32 DivS :: is) (mkcfg ls (VI32 b :: VI32 a :: k) st) Q.
Proof.
  intros Ha Hb H0 Hw. eapply wp_b32; [|exact Hw]. cbn [ibin]. destruct (Z.eqb_spec b 0); [exfalso; lia|]. assert (Hsa : sgn32 a = a) by (apply sgn32_small; lia).
  rewrite Hsa. replace (a =? - (m32 / 2)) with false by (symmetry; apply Z.eqb_neq; change (4294967296 / 2) with 2147483648; lia). cbn [andb]. f_equal.
  destruct Hb as [->|Hb].
  - destruct (Z.eq_dec (sgn32 b) 0) as [->|Hn]; [reflexivity|]. rewrite Z.quot_0_l by exact Hn. reflexivity.
  - assert (Hsb : sgn32 b = b) by (apply sgn32_small; lia). rewrite Hsb. rewrite Z.quot_div_nonneg by lia. apply Z.mod_small.
    split; [apply Z.div_pos; lia|]. apply Z.le_lt_trans with a; [|lia]. apply Z.div_le_upper_bound; [lia|]. nia.
Qed.

(** ** Evaluating the sequences *)
Definition msub (s : sub (HS := HS)) : ty * frag := (s_t s, s_c s).
Lemma seqs_ext G mn ss : forall d B l cs os l', map_seqs mn (map msub ss) d B l = (cs, os, l') -> Forall (sub_ok G) ss -> lwf l ->
  lext l l' /\ Forall (live l') os /\ NoDup os /\ Forall (fun o => ~ live l o) os.
Proof.
  induction ss as [|s ss IH]; intros d B l cs os l' H Hs Hw; cbn [map map_seqs] in H.
  - injection H as <- <- <-. split; [apply lext_refl; exact Hw|]. split; constructor; constructor.
  - unfold msub at 1 in H. destruct (s_c s d B l) as [c l1] eqn:Ec. destruct (add_local T32 l1) as [num l2] eqn:E1. destruct (add_local T32 l2) as [off l3] eqn:E2.
    destruct (map_seqs mn (map msub ss) d B l3) as [[cr os'] l4] eqn:Er. injection H as <- <- <-. inversion Hs as [|? ? H1 H2]; subst. unfold LangCtl.sub_ok in H1. ext_of H1 Ec Xc.
    destruct (add_ok _ _ _ _ E1 (lext_wf _ _ Xc)) as (X1 & L1 & N1). destruct (add_ok _ _ _ _ E2 (lext_wf _ _ X1)) as (X2 & L2 & N2).
    destruct (IH _ _ _ _ _ _ Er H2 (lext_wf _ _ X2)) as (X3 & I1 & I2 & I3).
    assert (Y2 : lext l l2) by (eapply lext_trans; eauto). assert (Y3 : lext l l3) by (eapply lext_trans; eauto).
    split; [eapply lext_trans; eauto|]. split; [constructor; [exact (lext_live _ _ _ X3 L2)|exact I1]|]. split.
    + constructor; [|exact I2]. intros Hin. rewrite Forall_forall in I3. exact (I3 _ Hin L2).
    + constructor; [intros Hl; exact (N2 (lext_live _ _ _ Y2 Hl))|]. eapply Forall_impl; [|exact I3]. intros o Ho Hl. apply Ho. exact (lext_live _ _ _ Y3 Hl).
Qed.

Definition seq_ty (t : ty) : Prop := is_seq t = true /\ ty_ok t /\ seq_max t * elem_size t < 2 ^ 31.

Lemma seqs_run {A} G B r F l ls st sp n d Q (rs : res HS A) mn : ctx G B r F l ls st sp n -> exits rt d F l ls st sp n Q rs -> ~ live l mn ->
  forall ss l1 cs os l2, map_seqs mn (map msub ss) d B l1 = (cs, os, l2) -> Forall (sub_ok G) ss -> Forall (fun s => seq_ty (s_t s)) ss -> lext l l1 -> live l1 mn -> (llen l2 <= length ls)%nat ->
  forall ls1 st1 sp1 n1 c0, moved l ls st sp n1 ls1 st1 sp1 -> n1 + sfr ss <= n -> nth_error ls1 mn = Some (VI32 c0) -> 0 <= c0 < 2 ^ 31 ->
  forall (f : list value -> M HS A) js k, bind (mapM (map (fun s => s_m s r) ss)) f (shost st1) = Some rs ->
    (forall qs ls2 st2 sp2, map q_t qs = map (@s_t HS) ss -> map q_o qs = os -> Forall (seq_in (smem st2) (vis F sp2)) qs -> Forall (at_elem ls2 0) qs ->
       moved l ls st sp (n1 + sfr ss) ls2 st2 sp2 -> (forall j, live l1 j -> j <> mn -> nth_error ls2 j = nth_error ls1 j) -> sp1 <= sp2 -> below sp1 (smem st1) (smem st2) ->
       nth_error ls2 mn = Some (VI32 (fewest qs c0)) -> f (map q_v qs) (shost st2) = Some rs -> wp js (mkcfg ls2 k st2) Q) ->
    wp (cs ++ js) (mkcfg ls1 k st1) Q.
Proof.
  intros HC HX Hmn. induction ss as [|s ss IH]; intros l1 cs os l2 H Hs Hty Xl Lm HL ls1 st1 sp1 n1 c0 HM Hn Hc Hc0 f js k Hm HW.
  - cbn in H. injection H as <- <- <-. cbn in Hm. cbn [app map sfr fold_right] in *. apply (HW [] ls1 st1 sp1); [reflexivity|reflexivity|constructor|constructor|rewrite Z.add_0_r; exact HM|auto|lia|apply below_refl|exact Hc|exact Hm].
  - cbn [map map_seqs] in H. unfold msub at 1 in H. destruct (s_c s d B l1) as [c l3] eqn:Ec. destruct (add_local T32 l3) as [num l4] eqn:E1. destruct (add_local T32 l4) as [off l5] eqn:E2.
    destruct (map_seqs mn (map msub ss) d B l5) as [[cr os'] l6] eqn:Er.
    pose proof (f_equal (fun x => fst (fst x)) H) as H1'; pose proof (f_equal (fun x => snd (fst x)) H) as H2'; pose proof (f_equal snd H) as H3'; cbn [fst snd] in H1', H2', H3'; clear H; subst cs os l6.
    inversion Hs as [|? ? H1 H2]; subst. inversion Hty as [|? ? (T1 & T2 & T3) H4]; subst. unfold LangCtl.sub_ok in H1. ext_of H1 Ec Xc.
    destruct (add_ok _ _ _ _ E1 (lext_wf _ _ Xc)) as (X1 & L1 & N1). destruct (add_ok _ _ _ _ E2 (lext_wf _ _ X1)) as (X2 & L2 & N2).
    destruct (seqs_ext _ _ _ _ _ _ _ _ _ Er H2 (lext_wf _ _ X2)) as (Xr & Lr & Nr & Mr).
    assert (Y3 : lext l l3) by (eapply lext_trans; eauto). assert (Y4 : lext l l4) by (eapply lext_trans; eauto). assert (Y5 : lext l l5) by (eapply lext_trans; eauto).
    assert (Z4 : lext l1 l4) by (eapply lext_trans; eauto). assert (Z5 : lext l1 l5) by (eapply lext_trans; eauto).
    assert (D1 : num <> mn) by (intros ->; apply N1; exact (lext_live _ _ _ Xc Lm)). assert (D2 : off <> mn) by (intros ->; apply N2; exact (lext_live _ _ _ Z4 Lm)).
    assert (D3 : off <> num) by (intros ->; exact (N2 L1)).
    fr_of H1. pose proof (sfr_nonneg _ _ _ _ _ _ H2) as P2.
    cbn [sfr fold_right] in Hn, HW. fold (sfr ss) in Hn, HW. rewrite <- !app_assoc. cbn [map mapM] in Hm. rewrite bind_assoc in Hm.
    assert (R3 : (llen l3 <= length ls)%nat) by lenl. assert (R5 : (llen l5 <= length ls)%nat) by lenl.
    assert (B1 : (num < length ls)%nat) by (destruct L1; lenl). assert (B2 : (off < length ls)%nat) by (destruct L2; lenl).
    assert (B3 : (mn < length ls)%nat) by (destruct Lm; lenl).
    eapply (impl_next _ _ _ _ _ _ _ _ _ _ H1 Ec);
        [exact HC|exact HM|clear - Hn P2; lia|exact Xl|eapply ctx_moved; [exact HC|exact Xl|exact HM|clear - Hn P2; lia]|exact Hm|exact HX|exact R3|].
    intros v h ls2 st2 sp2 ws HG HM2 Hm2 _. cbv beta in Hm2. rewrite bind_assoc in Hm2.
    pose proof (g_moved _ _ _ _ _ _ _ _ _ _ _ _ _ HG) as HMs. pose proof (g_rep _ _ _ _ _ _ _ _ _ _ _ _ _ HG) as Hrv. pose proof (g_type _ _ _ _ _ _ _ _ _ _ _ _ _ HG) as Htv.
    destruct (rep_seq _ _ _ _ _ T1 Hrv) as (pv & -> & A1 & A2 & A3 & A4). pose proof (seq_type_len _ _ T1 Htv) as Hlv. pose proof (unit_pos _ T1 T2) as Hu.
    change (elem_size (s_t s)) with (unit_size (s_t s)) in *. set (u := unit_size (s_t s)) in *.
    assert (Hlu : seq_len v * u < 2 ^ 31) by (clear - T3 Hlv Hu; nia).
    assert (Zl : length ls2 = length ls) by (apply lkeep_len with (l := l); apply HM2).
    assert (Hc2 : nth_error ls2 mn = Some (VI32 c0)) by (rewrite (lkeep_get _ _ _ _ (m_ls _ _ _ _ _ _ _ _ HMs) Lm); exact Hc).
    assert (Hlb : seq_len v < 2 ^ 31) by (clear - Hlu Hlv Hu; nia).
    cbn [rev app]. apply wp_const. apply wp_divs32; [clear - A2 Hlu; lia| |clear - Hu; lia|].
    { destruct (Z.eq_dec (seq_len v * u) 0) as [He|He]; [left; exact He|right]. assert (1 <= seq_len v) by (destruct (Z.eq_dec (seq_len v) 0) as [H0|H0]; [rewrite H0 in He; contradiction He; reflexivity|clear - H0 Hlv; lia]). clear - H Hlu Hu. nia. }
    rewrite Z.div_mul by (clear - Hu; lia). apply wp_ltee. eapply wp_lget; [apply lset_same; rewrite Zl; exact B1|]. eapply wp_lget; [rewrite nth_lset_ne by auto; exact Hc2|].
    apply wp_r32. cbn [irel]. rewrite (sgn32_small (seq_len v)) by (clear - Hlb Hlv; lia). rewrite (sgn32_small c0) by (clear - Hc0; lia).
    (* whatever branch *)
    assert (Hnext : forall ls3, length ls3 = length ls -> (forall j, j <> num -> j <> mn -> nth_error ls3 j = nth_error ls2 j) -> nth_error ls3 mn = Some (VI32 (Z.min c0 (seq_len v))) ->
      wp (LSet off :: cr ++ js) (mkcfg ls3 (VI32 pv :: k) st2) Q).
    { intros ls3 Z3 K3 M3. apply wp_lset. set (ls4 := lset ls3 off _).
      assert (Z4' : length ls4 = length ls) by (unfold ls4; rewrite lset_len; exact Z3).
      assert (K4 : forall j, j <> num -> j <> mn -> j <> off -> nth_error ls4 j = nth_error ls2 j) by (intros j J1 J2 J3; unfold ls4; rewrite nth_lset_ne by auto; apply K3; assumption).
      assert (HK : lkeep l ls2 ls4).
      { split; [rewrite Z4', Zl; reflexivity|]. intros j Hj. apply K4; intros ->; [exact (N1 (lext_live _ _ _ Y3 Hj))|exact (Hmn Hj)|exact (N2 (lext_live _ _ _ Y4 Hj))]. }
      eapply (IH l5 cr os' l2 Er H2 H4 Y5 (lext_live _ _ _ Z5 Lm) HL ls4 st2 sp2 (n1 + s_fr s) (Z.min c0 (seq_len v))); [eapply moved_ls; [exact HM2|exact HK]|clear - Hn P2; lia| |clear - Hc0 Hlv; lia|exact Hm2|].
      { unfold ls4. rewrite nth_lset_ne by auto. exact M3. }
      intros qs ls5 st5 sp5 I1 I2 I3 I4 I5 I6 I7 I8 I9 I10.
      pose proof (m_rng _ _ _ _ _ _ _ _ HMs) as Hrg. pose proof (m_mem _ _ _ _ _ _ _ _ HMs) as Hbl.
      apply (HW (mkms (s_t s) v pv off :: qs) ls5 st5 sp5); [cbn [map q_t]; rewrite I1; reflexivity|cbn [map q_o]; rewrite I2; reflexivity| | |rewrite Z.add_assoc; exact I5| |clear - I7 Hrg; lia| |exact I9|exact I10].
      - constructor; [|exact I3]. split; [exact T1|]. split; [exact T2|]. split; [exact Htv|]. eapply rep_up; [exact I8|exact I7|exact Hrv].
      - constructor; [|exact I4]. unfold at_elem. cbn [q_o q_p q_t]. rewrite I6; [|exact L2|exact D2]. unfold ls4. rewrite lset_same by (rewrite Z3; exact B2). rewrite Z.mul_0_l, Z.add_0_r. reflexivity.
      - intros j Hj Hjm. rewrite I6; [|exact (lext_live _ _ _ Z5 Hj)|exact Hjm]. rewrite K4; [|intros ->; exact (N1 (lext_live _ _ _ Xc Hj))|exact Hjm|intros ->; exact (N2 (lext_live _ _ _ Z4 Hj))].
        apply (lkeep_get _ _ _ _ (m_ls _ _ _ _ _ _ _ _ HMs) Hj).
      - eapply below_trans; [|exact Hbl|exact I8]. clear - Hrg; lia. }
    apply wp_if_bool; intros Hle; cbn [firstn skipn].
    + apply wp_lset. apply wp_nil. unfold qblock, cont. cbn [exit_block]. unfold setstk. cbn [clocals cstack cstore firstn app]. apply Z.leb_le in Hle. apply Hnext.
      * rewrite !lset_len. exact Zl.
      * intros j J1 J2. rewrite !nth_lset_ne by auto. reflexivity.
      * rewrite lset_same by (rewrite lset_len, Zl; exact B3). rewrite Z.min_r by lia. reflexivity.
    + apply wp_drop. apply wp_nil. unfold qblock, cont. cbn [exit_block]. unfold setstk. cbn [clocals cstack cstore firstn app]. apply Z.leb_gt in Hle. apply Hnext.
      * rewrite !lset_len. exact Zl.
      * intros j J1 J2. rewrite !nth_lset_ne by auto. reflexivity.
      * rewrite nth_lset_ne by auto. rewrite Z.min_l by lia. exact Hc2.
Qed.
(** ** The elements at one position *)
Definition advanced (os : list nat) (ls ls' : list val) : Prop := length ls' = length ls /\ forall j, ~ In j os -> nth_error ls' j = nth_error ls j.

Lemma advance q i ls (ls0 : list val) js k (st : store HS) Q : at_elem ls i q -> length ls = length ls0 -> (q_o q < length ls0)%nat -> 0 <= q_p q + (i + 1) * unit_size (q_t q) < m32 ->
  (at_elem (lset ls (q_o q) (VI32 (q_p q + (i + 1) * unit_size (q_t q)))) (i + 1) q -> wp js (mkcfg (lset ls (q_o q) (VI32 (q_p q + (i + 1) * unit_size (q_t q)))) k st) Q) ->
  wp ([LGet (q_o q); Const (VI32 (elem_size (q_t q))); B32 Add; LSet (q_o q)] ++ js) (mkcfg ls k st) Q.
Proof.
  intros Ha Hl Ho Hb HW. cbn [app]. eapply wp_lget; [exact Ha|]. apply wp_const. change (elem_size (q_t q)) with (unit_size (q_t q)).
  eapply wp_b32; [cbn [ibin]; replace (q_p q + i * unit_size (q_t q) + unit_size (q_t q)) with (q_p q + (i + 1) * unit_size (q_t q)) by lia; rewrite Z.mod_small by exact Hb; reflexivity|].
  apply wp_lset. apply HW. unfold at_elem. apply lset_same. rewrite Hl. exact Ho.
Qed.

Lemma seq_room m P q i : seq_in m P q -> msize m < m32 -> 0 <= i < seq_len (q_v q) ->
  0 <= q_p q /\ q_p q + seq_len (q_v q) * unit_size (q_t q) <= msize m /\ 0 <= q_p q + (i + 1) * unit_size (q_t q) < m32.
Proof.
  intros (H1 & H2 & H3 & H4) Hm Hi. destruct (rep_seq _ _ _ _ _ H1 H4) as (o & He & A1 & A2 & A3 & A4). injection He as <-. pose proof (unit_pos _ H1 H2) as Hu.
  split; [lia|]. split; [lia|]. assert (Hle : (i + 1) * unit_size (q_t q) <= seq_len (q_v q) * unit_size (q_t q)) by nia. nia.
Qed.

Lemma others q qs ls i x : ~ In (q_o q) (map q_o qs) -> Forall (at_elem ls i) qs -> Forall (at_elem (lset ls (q_o q) x) i) qs.
Proof.
  intros Hn H. rewrite Forall_forall in *. intros p Hp. specialize (H p Hp). unfold at_elem in *. rewrite nth_lset_ne; [exact H|]. intros He. apply Hn. rewrite He. apply in_map. exact Hp.
Qed.

Lemma fetch_row i qs : forall first vs ls k (st : store HS) P js Q, row i qs vs -> Forall (seq_in (smem st) P) qs -> msize (smem st) < m32 -> 0 <= i -> Forall (fun q => i < seq_len (q_v q)) qs ->
  NoDup (map q_o qs) -> Forall (fun q => (q_o q < length ls)%nat) qs -> Forall (at_elem ls i) qs ->
  (forall ws ls', rep_list (smem st) P (map (fun q => elem_ty (q_t q)) qs) vs ws -> Forall2 has_type (map (fun q => elem_ty (q_t q)) qs) vs -> advanced (map q_o qs) ls ls' -> Forall (at_elem ls' (i + 1)) qs ->
     wp js (mkcfg ls' (rev ws ++ k) st) Q) ->
  wp (map_elems None first (map q_t qs) (map q_o qs) ++ js) (mkcfg ls k st) Q.
Proof.
  induction qs as [|q qs IH]; intros first vs ls k st P js Q Hr Hq Hm Hi Hl HN Hb Ha HW.
  - inversion Hr; subst. cbn [map map_elems app]. apply (HW [] ls); [constructor|constructor|split; auto|constructor].
  - inversion Hr as [|? x ? vs' Hx Hr']; subst. inversion Hq as [|? ? Q1 Q2]; subst. inversion Hl as [|? ? L1 L2]; subst. inversion HN as [|? ? N1 N2]; subst. inversion Hb as [|? ? B1 B2]; subst. inversion Ha as [|? ? A1 A2]; subst.
    destruct (seq_room _ _ _ i Q1 Hm ltac:(lia)) as (G1 & G2 & G3). destruct Q1 as (S1 & S2 & S3 & S4).
    cbn [map map_elems]. change (elem_code (q_t q) (q_o q)) with (fetch_code (q_t q) (q_o q)). rewrite <- !app_assoc.
    eapply (fetch_ok E (q_t q) (q_v q) i (q_p q)); [exact S1|exact S3|exact S4|lia|exact A1|lia|exact G1|].
    intros y wy Hy Hry Hty. rewrite Hx in Hy. injection Hy as <-. cbn [app].
    change (LGet (q_o q) :: Const (VI32 (elem_size (q_t q))) :: B32 Add :: LSet (q_o q) :: map_elems None false (map q_t qs) (map q_o qs) ++ js) with ([LGet (q_o q); Const (VI32 (elem_size (q_t q))); B32 Add; LSet (q_o q)] ++ map_elems None false (map q_t qs) (map q_o qs) ++ js).
    eapply (advance q i ls ls); [exact A1|reflexivity|exact B1|exact G3|]. intros HA. set (ls1 := lset ls (q_o q) _) in *.
    assert (Hlen : length ls1 = length ls) by apply lset_len.
    eapply (IH false vs' ls1 _ st P); [exact Hr'|exact Q2|exact Hm|exact Hi|exact L2|exact N2|rewrite Hlen; exact B2|apply others; assumption|].
    intros ws ls' Hrl Htl (HL' & HK') HA'. rewrite app_assoc, <- rev_app_distr. apply (HW (wy ++ ws) ls').
    + cbn [map]. constructor; assumption.
    + cbn [map]. constructor; assumption.
    + split; [rewrite HL'; exact Hlen|]. intros j Hj. cbn [map In] in Hj. rewrite HK' by tauto. unfold ls1. rewrite nth_lset_ne; [reflexivity|]. intros He. apply Hj. left. exact He.
    + constructor; [|exact HA']. unfold at_elem in *. rewrite HK' by exact N1. exact HA.
Qed.

(** arithmetic on two or more sequences: applied as the elements come *)
Lemma fetch_arith o t i qs : is_num t = true -> forall vs a ls k (st : store HS) P js (Q : outcome HS -> Prop) rs, row i qs vs -> Forall (seq_in (smem st) P) qs -> msize (smem st) < m32 -> 0 <= i -> Forall (fun q => i < seq_len (q_v q)) qs ->
  Forall (fun q => elem_ty (q_t q) = t) qs -> NoDup (map q_o qs) -> Forall (fun q => (q_o q < length ls)%nat) qs -> Forall (at_elem ls i) qs -> in_range t a -> (exists w, gget (sglob st) "runtime-error-code" = Some w) ->
  foldA_ok o t (num t a) (map ret vs) (shost st) = true -> foldA o t (num t a) vs (shost st) = Some rs ->
  (forall c, rs = Abort c -> forall st', gget (sglob st') "runtime-error-code" = Some (VI32 c) -> Q (OTrap TUnreachable st')) ->
  (forall v h ws' ls', rs = Done v h -> h = shost st -> (forall m P, rep m P t v ws') -> has_type t v -> advanced (map q_o qs) ls ls' -> Forall (at_elem ls' (i + 1)) qs ->
     wp js (mkcfg ls' (rev ws' ++ k) st) Q) ->
  wp (map_elems (Some [Call (arith_fun o t)]) false (map q_t qs) (map q_o qs) ++ js) (mkcfg ls (rev (nws a) ++ k) st) Q.
Proof.
  intros Ht. induction qs as [|q qs IH]; intros vs a ls k st P js Q rs Hr Hq Hm Hi Hl Het HN Hb Ha Hra Herr Hok Hf HX HW.
  - inversion Hr; subst. cbn [map map_elems app]. cbn [foldA] in Hf. unfold ret in Hf. injection Hf as <-.
    apply (HW (num t a) (shost st) (nws a) ls eq_refl eq_refl); [intros; apply rep_nws; exact Ht|apply type_num; assumption|split; auto|constructor].
  - inversion Hr as [|? x ? vs' Hx Hr']; subst. inversion Hq as [|? ? Q1 Q2]; subst. inversion Hl as [|? ? L1 L2]; subst. inversion HN as [|? ? N1 N2]; subst. inversion Hb as [|? ? B1 B2]; subst. inversion Ha as [|? ? A1 A2]; subst. inversion Het as [|? ? E1 E2]; subst.
    destruct (seq_room _ _ _ i Q1 Hm ltac:(lia)) as (G1 & G2 & G3). destruct Q1 as (S1 & S2 & S3 & S4).
    cbn [map map_elems]. change (elem_code (q_t q) (q_o q)) with (fetch_code (q_t q) (q_o q)). rewrite <- !app_assoc. set (t := elem_ty (q_t q)) in *.
    eapply (fetch_ok E (q_t q) (q_v q) i (q_p q)); [exact S1|exact S3|exact S4|lia|exact A1|lia|exact G1|].
    intros y wy Hy Hry Hty. rewrite Hx in Hy. injection Hy as <-. fold t in Hry, Hty. destruct (rep_num_inv _ _ _ _ _ Ht Hry) as (b & -> & ->). apply type_num_inv in Hty; [|exact Ht].
    cbn [map foldA_ok] in Hok. unfold ret at 1 in Hok. rewrite !num_of_num in Hok by exact Ht. apply andb_prop in Hok as (Hwr & Hok). apply negb_true_iff in Hwr.
    cbn [foldA] in Hf. rewrite !num_of_num in Hf by exact Ht. cbn [app].
    rewrite app_assoc, <- rev_app_distr. eapply (does_wp E (arith_fun o t) (nws a ++ nws b) st t); [apply arith2_does; [exact HE|exact Ht|exact Hra|exact Hty|exact Hwr]|apply (arith_arity E HE)|exact Herr|].
    destruct (arith2 o t a b) as [v|c] eqn:Ea.
    + intros ws Hws Htv. destruct (rep_num_inv _ _ _ _ _ Ht (Hws (smem st) P)) as (z & -> & ->). change (foldA o t (num t z) vs' (shost st) = Some rs) in Hf.
      change (LGet (q_o q) :: Const (VI32 (elem_size (q_t q))) :: B32 Add :: LSet (q_o q) :: map_elems (Some [Call (arith_fun o t)]) false (map q_t qs) (map q_o qs) ++ js) with ([LGet (q_o q); Const (VI32 (elem_size (q_t q))); B32 Add; LSet (q_o q)] ++ map_elems (Some [Call (arith_fun o t)]) false (map q_t qs) (map q_o qs) ++ js).
      eapply (advance q i ls ls); [exact A1|reflexivity|exact B1|exact G3|]. intros HA. set (ls1 := lset ls (q_o q) _) in *.
      assert (Hlen : length ls1 = length ls) by apply lset_len.
      eapply (IH vs' z ls1 _ st P _ _ rs); [exact Hr'|exact Q2|exact Hm|exact Hi|exact L2|exact E2|exact N2|rewrite Hlen; exact B2|apply others; assumption|apply type_num_inv; assumption|exact Herr|exact Hok|exact Hf|exact HX|].
      intros v h ws' ls' Hrs Hh Hr2 Ht2 (HL' & HK') HA'. apply (HW v h ws' ls' Hrs Hh Hr2 Ht2).
      * split; [rewrite HL'; exact Hlen|]. intros j Hj. cbn [map In] in Hj. rewrite HK' by tauto. unfold ls1. rewrite nth_lset_ne; [reflexivity|]. intros He. apply Hj. left. exact He.
      * constructor; [|exact HA']. unfold at_elem in *. rewrite HK' by exact N1. exact HA.
    + intros st' Hst'. cbn [of_sum] in Hf. unfold bind, abort in Hf. injection Hf as <-. eapply HX; [reflexivity|exact Hst'].
Qed.

(** fetching the elements at position [i] and applying the function to them *)
Lemma row_ok g t ts l inter cv l' : wt_fn sig g t (map elem_ty ts) = true -> has_in_memory t = false ->
  inter = match g, ts with FArith o, _ :: _ :: _ => Some [Call (arith_fun o t)] | _, _ => None end ->
  match inter with Some _ => ([], l) | None => visit_fn g (fn_ret sig g t) t (map elem_ty ts) None l end = (cv, l') -> lwf l ->
  lext l l' /\
  forall qs i vs (F : Z -> Prop) sp1 sp2 ls (st : store HS) k js (Q : outcome HS -> Prop) rs, map q_t qs = ts -> row i qs vs -> Forall (seq_in (smem st) (vis F sp1)) qs -> sp1 <= sp2 -> callable L X F st sp2 -> 0 <= i ->
    Forall (fun q => i < seq_len (q_v q)) qs -> NoDup (map q_o qs) -> Forall (live l) (map q_o qs) -> (llen l' <= length ls)%nat -> Forall (at_elem ls i) qs ->
    apply_fn true funs g t vs (shost st) = Some rs ->
    (forall c, rs = Abort c -> (forall st', gget (sglob st') "runtime-error-code" = Some (VI32 c) -> Q (OTrap TUnreachable st')) /\ (c = err_host -> forall st', Q (OTrap THost st'))) ->
    (forall v h ls' st' ws', rs = Done v h -> length ls' = length ls -> (forall j, live l j -> ~ In j (map q_o qs) -> nth_error ls' j = nth_error ls j) -> Forall (at_elem ls' (i + 1)) qs ->
       below sp2 (smem st) (smem st') -> (forall n, gget (sglob st') n = gget (sglob st) n) -> shost st' = h ->
       (forall m P, rep m P t v ws') -> has_type t v -> wp js (mkcfg ls' (rev ws' ++ k) st') Q) ->
    wp (map_elems inter true ts (map q_o qs) ++ cv ++ js) (mkcfg ls k st) Q.
Proof.
  intros Hwt Hnm Hin Hcv Hw.
  assert (Hcase : (exists o t1 t2 tr, g = FArith o /\ ts = t1 :: t2 :: tr /\ inter = Some [Call (arith_fun o t)]) \/ (inter = None /\ match g with FArith _ => (length (map elem_ty ts) <= 2)%nat | _ => True end)).
  { destruct g as [kd f|w|o|any]; try (right; split; [exact Hin|exact I]). destruct ts as [|t1 [|t2 tr]]; [right; split; [exact Hin|cbn; lia]|right; split; [exact Hin|cbn; lia]|left; exists o, t1, t2, tr; auto]. }
  clear Hin. destruct Hcase as [(o & t1 & t2 & tr & -> & -> & ->)|(-> & Har)].
  - injection Hcv as <- <-. split; [apply lext_refl; exact Hw|]. intros qs i vs F sp1 sp2 ls st k js Q rs Hts Hr Hq Hs HK Hi Hl HN Hlv HL Ha Hf HA HW.
    cbn [wt_fn] in Hwt. apply andb_prop in Hwt as (Hwt & Hne). apply andb_prop in Hwt as (Ht & Hws).
    assert (Het : Forall (fun q => elem_ty (q_t q) = t) qs).
    { rewrite <- Hts, map_map in Hws. clear - Hws Ht. induction qs as [|q qs IH]; [constructor|]. cbn [map forallb] in Hws. apply andb_prop in Hws as (W1 & W2). constructor; [apply widens_num; assumption|apply IH; exact W2]. }
    assert (Hb : Forall (fun q => (q_o q < length ls)%nat) qs).
    { clear - Hlv HL. rewrite Forall_map in Hlv. eapply Forall_impl; [|exact Hlv]. intros q (Hq & _). lia. }
    destruct qs as [|q [|q2 qs]]; try discriminate Hts. inversion Hr as [|? x ? vs' Hx Hr']; subst. inversion Hq as [|? ? Q1 Q2]; subst. inversion Hl as [|? ? L1 L2]; subst. inversion HN as [|? ? N1 N2]; subst. inversion Hb as [|? ? B1 B2]; subst. inversion Ha as [|? ? A1 A2]; subst. inversion Het as [|? ? E1 E2]; subst.
    assert (Hm : msize (smem st) < m32) by apply (k_room _ _ _ _ _ HK).
    destruct (seq_room _ _ _ i Q1 Hm ltac:(lia)) as (G1 & G2 & G3). destruct Q1 as (S1 & S2 & S3 & S4). injection Hts as <- <- <-. set (t := elem_ty (q_t q)) in *.
    change (map_elems (Some [Call (arith_fun o t)]) true (q_t q :: q_t q2 :: map q_t qs) (map q_o (q :: q2 :: qs)))
      with (fetch_code (q_t q) (q_o q) ++ [] ++ [LGet (q_o q); Const (VI32 (elem_size (q_t q))); B32 Add; LSet (q_o q)] ++ map_elems (Some [Call (arith_fun o t)]) false (map q_t (q2 :: qs)) (map q_o (q2 :: qs))).
    rewrite <- !app_assoc. eapply (fetch_ok E (q_t q) (q_v q) i (q_p q)); [exact S1|exact S3|exact S4|lia|exact A1|lia|exact G1|].
    intros y wy Hy Hry Hty. rewrite Hx in Hy. injection Hy as <-. fold t in Hry, Hty. destruct (rep_num_inv _ _ _ _ _ Ht Hry) as (b & -> & ->). apply type_num_inv in Hty; [|exact Ht].
    cbn [apply_fn] in Hf. unfold unless in Hf. cbn [andb] in Hf. destruct (arith_ok o t (num t b) (map ret vs') (shost st)) eqn:Hok; [|discriminate]. cbn [negb] in Hf.
    destruct vs' as [|x2 vs']; [inversion Hr'|]. cbn [arithM] in Hf. unfold arith_ok in Hok. cbn [map] in Hok.
    cbn [app]. eapply (advance q i ls ls); [exact A1|reflexivity|exact B1|exact G3|]. intros HA1. set (ls1 := lset ls (q_o q) _) in *.
    assert (Hlen : length ls1 = length ls) by apply lset_len.
    eapply (fetch_arith o t i (q2 :: qs) Ht (x2 :: vs') b ls1 k st (vis F sp1) js Q rs); [exact Hr'|exact Q2|exact Hm|exact Hi|exact L2|exact E2|exact N2|rewrite Hlen; exact B2|apply others; assumption|exact Hty|apply (k_err _ _ _ _ _ HK)|exact Hok|exact Hf| |].
    + intros c Hc. apply (HA c Hc).
    + intros v h ws' ls' Hrs Hh Hr2 Ht2 (HL' & HK') HA'. apply (HW v h ls' st ws' Hrs); [rewrite HL'; exact Hlen| | |apply below_refl|reflexivity|symmetry; exact Hh|exact Hr2|exact Ht2].
      * intros j _ Hj. cbn [map In] in Hj. rewrite HK' by tauto. unfold ls1. rewrite nth_lset_ne; [reflexivity|]. intros He. apply Hj. left. exact He.
      * constructor; [|exact HA']. unfold at_elem in *. rewrite HK' by exact N1. exact HA1.
  - destruct (fn_ok E HE sig L X HO funs Hfuns g t (map elem_ty ts) None l cv l' Hwt Har Hcv Hw) as (Xv & Hap). split; [exact Xv|].
    intros qs i vs F sp1 sp2 ls st k js Q rs Hts Hr Hq Hs HK Hi Hl HN Hlv HL Ha Hf HA HW.
    assert (Hb : Forall (fun q => (q_o q < length ls)%nat) qs).
    { clear - Hlv HL Xv. apply lext_len in Xv. rewrite Forall_map in Hlv. eapply Forall_impl; [|exact Hlv]. intros q (Hq & _). lia. }
    subst ts. eapply (fetch_row i qs true vs ls k st (vis F sp1)); [exact Hr|exact Hq|apply (k_room _ _ _ _ _ HK)|exact Hi|exact Hl|exact HN|exact Hb|exact Ha|].
    intros ws ls1 Hrl Htl (HL1 & HK1) HA1. rewrite map_map in Hap.
    eapply (Hap F sp2 vs ws st rs); [exact HK|rewrite HL1; exact HL| |exact Htl|exact Hf|exact HA|].
    { eapply rep_list_frame; [reflexivity| | |exact Hrl]; [reflexivity|]. intros a (H1 & H2). split; [lia|exact H2]. }
    intros v h ls' st' ws' Hrs K' Hb' Hg' Hh' Hr2 Ht2. apply (HW v h ls' st' ws' Hrs); [rewrite (lkeep_len _ _ _ K'); exact HL1| | |exact Hb'|exact Hg'|exact Hh'|exact Hr2|exact Ht2].
    + intros j Hj Hn. rewrite (lkeep_get _ _ _ _ K' Hj). apply HK1. exact Hn.
    + rewrite Forall_forall in *. intros q Hq2. specialize (HA1 q Hq2). unfold at_elem in *. rewrite (lkeep_get _ _ _ _ K'); [exact HA1|]. apply Hlv. apply in_map. exact Hq2.
Qed.
Lemma map_ok G g t n ss : ty_ok (TList n t) -> has_in_memory t = false -> wt_fn sig g t (map (fun s => elem_ty (s_t s)) ss) = true -> Forall (sub_ok G) ss -> Forall (fun s => seq_ty (s_t s)) ss ->
  existsb (fun s => seq_max (s_t s) <=? n) ss = true ->
  impl G (TList n t) (call_stack_size (TList n t) false true + sfr ss) (e_map g (fn_ret sig g t) n t (map msub ss))
    (fun r => bind (mapM (map (fun s => s_m s r) ss)) (fun vs => bind (mapF true funs g t (zip_rows (map seq_items vs))) (fun ws => ret (CList ws)))).
Proof.
  intros Hok Hnm Hwt Hs Hty Hex. pose proof (sfr_nonneg _ _ _ _ _ _ Hs) as P2. pose proof (inmem_nonneg (TList n t) false Hok) as P1.
  assert (Hcs : call_stack_size (TList n t) false true = n * get_type_size t) by (cbn [call_stack_size get_type_in_memory_size]; lia).
  cbn [call_stack_size] in P1. remember (call_stack_size (TList n t) false true) as sz eqn:Hsz. assert (Psz : 0 <= sz) by (rewrite Hsz; exact P1). clear P1.
  destruct Hok as (Hn0 & Hokt). pose proof (size_pos t Hokt) as Hu4. set (u := get_type_size t) in *.
  split; [lia|]. intros d B l code l' HC Hw. unfold e_map in HC. rewrite map_map in HC. change (map (fun x => fst (msub x)) ss) with (map (@s_t HS) ss) in HC.
  destruct (add_local T32 l) as [mn l1] eqn:E1. destruct (map_seqs mn (map msub ss) d B l1) as [[ca os] l2] eqn:Es.
  destruct (create_call_stack_local (TList n t) false true l2) as [[[base sz1] cc] l3] eqn:Ec. assert (Hsz1 : sz1 = sz) by (rewrite Hsz; unfold create_call_stack_local in Ec; destruct (add_local T32 l2); congruence). subst sz1.
  destruct (add_local T32 l3) as [out l4] eqn:E2. destruct (add_local T32 l4) as [ix l5] eqn:E3.
  remember (match g, map (@s_t HS) ss with FArith o, _ :: _ :: _ => Some [Call (arith_fun o t)] | _, _ => None end) as inter eqn:Hin.
  destruct (match inter with Some _ => ([], l5) | None => visit_fn g (fn_ret sig g t) t (map elem_ty (map (@s_t HS) ss)) None l5 end) as [cv l6] eqn:Ev.
  destruct (write_to_memory t out 0 l6) as [cw l7] eqn:Ew.
  pose proof (f_equal fst HC) as HC1; pose proof (f_equal snd HC) as HC2; cbn [fst snd] in HC1, HC2; clear HC; subst code l'.
  destruct (add_ok _ _ _ _ E1 Hw) as (X1 & L1 & N1). destruct (seqs_ext _ _ _ _ _ _ _ _ _ Es Hs (lext_wf _ _ X1)) as (Xs & Los & Nos & Mos).
  destruct (reserve_run E L X HX0 _ _ _ _ _ _ _ _ Ec (lext_wf _ _ Xs)) as (Xc & Lb & Nb & Hres).
  destruct (add_ok _ _ _ _ E2 (lext_wf _ _ Xc)) as (X2 & L2 & N2). destruct (add_ok _ _ _ _ E3 (lext_wf _ _ X2)) as (X3 & L3 & N3).
  rewrite <- (map_map (@s_t HS) elem_ty) in Hwt.
  destruct (row_ok g t _ l5 inter cv l6 Hwt Hnm Hin Ev (lext_wf _ _ X3)) as (Xv & Hrow).
  assert (Lo5 : live l5 out) by (exact (lext_live _ _ _ X3 L2)). assert (Lo6 : live l6 out) by (exact (lext_live _ _ _ Xv Lo5)).
  destruct (write_memory_ok E t _ _ _ _ _ Ew (lext_wf _ _ Xv) Lo6) as (Xw & Hst).
  assert (Y2 : lext l l2) by (eapply lext_trans; eauto). assert (Y3 : lext l l3) by (eapply lext_trans; eauto). assert (Y4 : lext l l4) by (eapply lext_trans; eauto).
  assert (Y5 : lext l l5) by (eapply lext_trans; eauto). assert (Y6 : lext l l6) by (eapply lext_trans; eauto).
  assert (V25 : lext l2 l5) by (eapply lext_trans; [eapply lext_trans; [exact Xc|exact X2]|exact X3]). assert (V35 : lext l3 l5) by (eapply lext_trans; eauto).
  split; [eapply lext_trans; eauto|].
  assert (Lm2 : live l2 mn) by (exact (lext_live _ _ _ Xs L1)). assert (Lm3 : live l3 mn) by (exact (lext_live _ _ _ Xc Lm2)). assert (Lm5 : live l5 mn) by (exact (lext_live _ _ _ V25 Lm2)).
  assert (Lb5 : live l5 base) by (exact (lext_live _ _ _ V35 Lb)). assert (Lo5s : Forall (live l5) os) by (eapply live_all; [exact V25|exact Los]).
  assert (Fm : ~ In mn os) by (intros Hi; rewrite Forall_forall in Mos; exact (Mos _ Hi L1)).
  assert (Fb : ~ In base os) by (intros Hi; rewrite Forall_forall in Los; exact (Nb (Los _ Hi))).
  assert (Fo : ~ In out os) by (intros Hi; rewrite Forall_forall in Los; exact (N2 (lext_live _ _ _ Xc (Los _ Hi)))).
  assert (Fi : ~ In ix os) by (intros Hi; rewrite Forall_forall in Los; exact (N3 (lext_live _ _ _ X2 (lext_live _ _ _ Xc (Los _ Hi))))).
  assert (D1 : out <> base) by (intros ->; exact (N2 Lb)). assert (D2 : out <> mn) by (intros ->; exact (N2 Lm3)).
  assert (D3 : ix <> base) by (intros ->; exact (N3 (lext_live _ _ _ X2 Lb))). assert (D4 : ix <> mn) by (intros ->; exact (N3 (lext_live _ _ _ X2 Lm3))).
  assert (D5 : ix <> out) by (intros ->; exact (N3 L2)).
  assert (Hos : forall j, live l j -> ~ In j os) by (intros j Hj Hi; rewrite Forall_forall in Mos; exact (Mos _ Hi (lext_live _ _ _ X1 Hj))).
  intros F r js ls k st sp Q rs Hm HC HL HX HW. cbn [app]. rewrite <- !app_assoc.
  assert (Q1 : (mn < length ls)%nat) by (destruct L1; lenl). assert (Q2 : (base < length ls)%nat) by (destruct Lb; lenl). assert (Q3 : (out < length ls)%nat) by (destruct L2; lenl). assert (Q4 : (ix < length ls)%nat) by (destruct L3; lenl).
  assert (R2 : (llen l2 <= length ls)%nat) by lenl. assert (R3 : (llen l3 <= length ls)%nat) by lenl. assert (R6 : (llen l6 <= length ls)%nat) by lenl.
  pose proof (c_lo _ _ _ _ _ _ _ _ _ _ _ HC) as Hlo. pose proof (c_room _ _ _ _ _ _ _ _ _ _ _ HC) as Hrm.
  apply wp_const. apply wp_lset.
  assert (HM0 : moved l ls st sp 0 (lset ls mn (VI32 2147483647)) st sp) by (eapply moved_ls; [eapply moved_refl; exact HC|apply lkeep_lset; exact N1]).
  eapply (seqs_run G B r F l ls st sp _ d Q rs mn HC HX N1 ss l1 ca os l2 Es Hs Hty X1 L1 R2 _ st sp 0 2147483647 HM0); [clear - Psz; lia|apply lset_same; exact Q1|clear; lia|exact Hm|].
  intros qs ls2 st2 sp2 I1 I2 I3 I4 HM2 _ I7 I8 Hmn Hm2. cbv beta in Hm2. clear Hm HM0.
  assert (Hqmax : Forall (fun q => seq_len (q_v q) <= 2147483647) qs).
  { assert (Hq : Forall (fun q => seq_ty (q_t q)) qs) by (rewrite <- Forall_map, I1, Forall_map; exact Hty). clear - Hq I3. rewrite Forall_forall in *. intros q Hin. pose proof (seq_in_len _ _ _ (I3 q Hin)) as HL.
    destruct (Hq q Hin) as (S1 & S2 & S3). pose proof (unit_pos _ S1 S2) as HU. change (elem_size (q_t q)) with (unit_size (q_t q)) in S3. nia. }
  set (c := fewest qs 2147483647) in *.
  assert (Hc0 : 0 <= c) by (apply fewest_nonneg; [lia|]; clear - I3; eapply Forall_impl; [|exact I3]; intros q Hq; apply seq_in_len in Hq; lia).
  assert (Hce : Exists (fun q => c = seq_len (q_v q)) qs).
  { destruct (fewest_one qs 2147483647) as [H|H]; [|exact H]. fold c in H. pose proof (fewest_all qs 2147483647) as HA. fold c in HA.
    destruct qs as [|q qs]; [destruct ss; [discriminate Hex|discriminate I1]|]. apply Exists_cons_hd. inversion HA; subst. inversion Hqmax; subst. lia. }
  assert (Hcn : c <= n).
  { pose proof (fewest_all qs 2147483647) as HA. fold c in HA. assert (Hq : existsb (fun q => seq_max (q_t q) <=? n) qs = true).
    { clear - Hex I1. revert qs I1. induction ss as [|s ss IH]; intros qs I1; [discriminate|]. destruct qs as [|q qs]; [discriminate|]. injection I1 as J1 J2. cbn [existsb] in *. rewrite J1.
      destruct (seq_max (s_t s) <=? n); [reflexivity|]. cbn [orb] in *. apply IH; assumption. }
    apply existsb_exists in Hq as (q & Hin' & Hle). apply Z.leb_le in Hle. rewrite Forall_forall in HA, I3. specialize (HA q Hin'). pose proof (seq_in_len _ _ _ (I3 q Hin')) as HL'. lia. }
  assert (Hcu : c * u <= sz) by (rewrite Hcs; clear - Hcn Hu4 Hc0; nia).
  pose proof (ctx_msize _ _ _ _ _ _ _ _ _ _ _ _ _ _ _ HC HM2) as Hmz. pose proof (m_rng _ _ _ _ _ _ _ _ HM2) as Hrg2. rewrite Z.add_0_l in Hrg2, HM2.
  assert (HC2 : ctx G B r F l2 ls2 st2 sp2 sz) by (eapply ctx_moved; [exact HC|exact Y2|exact HM2|clear; lia]).
  assert (Zl2 : length ls2 = length ls) by (apply lkeep_len with (l := l); apply HM2).
  eapply Hres; [exact HC2|clear - Psz; lia|rewrite Zl2; exact R3|]. intros ls3 st3 Hh3 Hmem3 HM23 Hol _. rewrite <- Hh3 in Hm2.
  assert (HM3 : moved l ls st sp (sz + sfr ss) ls3 st3 (sp2 + sz)) by (rewrite Z.add_comm; eapply moved_trans; [exact Y2|exact HM2|exact HM23]).
  pose proof (m_ls _ _ _ _ _ _ _ _ HM23) as K23.
  assert (Zl3 : length ls3 = length ls) by (apply lkeep_len with (l := l); apply HM3).
  cbn [app]. eapply wp_lget; [exact Hol|]. apply wp_lset. apply wp_const. apply wp_lset. set (ls4 := lset (lset ls3 out _) ix _).
  assert (Zl4 : length ls4 = length ls) by (unfold ls4; rewrite !lset_len; exact Zl3).
  assert (HM4 : moved l ls st sp (sz + sfr ss) ls4 st3 (sp2 + sz)).
  { eapply moved_ls; [exact HM3|]. unfold ls4. eapply lkeep_trans0; apply lkeep_lset; intros Hj; [exact (N2 (lext_live _ _ _ Y3 Hj))|exact (N3 (lext_live _ _ _ Y4 Hj))]. }
  assert (G3 : Forall (seq_in (smem st3) (vis F sp2)) qs) by (rewrite Hmem3; exact I3).
  assert (A4 : Forall (at_elem ls4 0) qs).
  { rewrite Forall_forall in *. intros q Hq. specialize (I4 q Hq). unfold at_elem in *. unfold ls4. assert (Hqo : In (q_o q) os) by (rewrite <- I2; apply in_map; exact Hq).
    rewrite !nth_lset_ne by (intros He; rewrite ?He in *; auto). rewrite (lkeep_get _ _ _ _ K23); [exact I4|]. apply Los. exact Hqo. }
  assert (M4 : nth_error ls4 mn = Some (VI32 c)) by (unfold ls4; rewrite !nth_lset_ne by auto; rewrite (lkeep_get _ _ _ _ K23 Lm2); exact Hmn).
  assert (B4 : nth_error ls4 base = Some (VI32 sp2)) by (unfold ls4; rewrite !nth_lset_ne by auto; exact Hol).
  assert (O4 : nth_error ls4 out = Some (VI32 sp2)) by (unfold ls4; rewrite nth_lset_ne by auto; apply lset_same; rewrite Zl3; exact Q3).
  assert (T4 : nth_error ls4 ix = Some (VI32 0)) by (unfold ls4; apply lset_same; rewrite lset_len, Zl3; exact Q4).
  clear Hmn HM23 Hol K23. clearbody ls4. set (n0 := length (hd [] (map seq_items (map q_v qs)))).
  assert (Hm4 : bind (mapF true funs g t (rows n0 (rest 0 qs))) (fun ws => ret (CList ([] ++ ws))) (shost st3) = Some rs).
  { rewrite <- Hm2. unfold bind, zip_rows. fold n0. replace (rest 0 qs) with (map seq_items (map q_v qs)); [reflexivity|]. unfold rest. rewrite map_map. reflexivity. }
  assert (Hn0' : c <= Z.of_nat n0).
  { pose proof (fewest_all qs 2147483647) as HA. fold c in HA. unfold n0. destruct qs as [|q qs]; [destruct ss; [discriminate Hex|discriminate I1]|]. cbn [map hd]. inversion HA; subst. inversion I3 as [|? ? J1 _]; subst.
    destruct J1 as (J1 & _ & J3 & _). rewrite (items_len _ _ J1 J3). assumption. }
  apply wp_block. cbn [firstn skipn cstack]. unfold setstk. cbn [clocals cstore].
  eapply wp_loop0 with (z := c) (I := fun z s => exists lsx stx acc i, s = mkcfg lsx [] stx /\ 0 <= i <= c /\ z = c - i /\
     moved l ls st sp (sz + sfr ss) lsx stx (sp2 + sz) /\ Forall (seq_in (smem stx) (vis F sp2)) qs /\ Forall (at_elem lsx i) qs /\
     nth_error lsx mn = Some (VI32 c) /\ nth_error lsx base = Some (VI32 sp2) /\ nth_error lsx out = Some (VI32 (sp2 + i * u)) /\ nth_error lsx ix = Some (VI32 i) /\
     rep (smem stx) (por (vis F sp2) (seg sp2 (i * u))) (TList n t) (CList acc) [VI32 sp2; VI32 (i * u)] /\ Forall (has_type t) acc /\ Z.of_nat (length acc) = i /\
     bind (mapF true funs g t (rows (n0 - Z.to_nat i) (rest i qs))) (fun ws => ret (CList (acc ++ ws))) (shost stx) = Some rs).
  { exact Hc0. }
  { exists ls4, st3, [], 0. split; [reflexivity|]. split; [clear - Hc0; lia|]. split; [clear; lia|]. split; [exact HM4|]. split; [exact G3|]. split; [exact A4|]. split; [exact M4|]. split; [exact B4|].
    split; [rewrite Z.mul_0_l, Z.add_0_r; exact O4|]. split; [exact T4|]. split; [rewrite Z.mul_0_l; apply empty_rep; rewrite ?Hmem3, ?Hmz; clear - Hlo Hrm Hrg2 Psz P2 HX0; lia|].
    split; [constructor|]. split; [reflexivity|]. rewrite Nat.sub_0_r. exact Hm4. }
  clear HM4 G3 A4 M4 B4 O4 T4 Hm4 Hm2 HM3 I3 I4 Hh3 Hmem3 HC2.
  intros z ls9 st9 Hz (lsx & stx & acc & i & Hcfg & Hi & Hzi & HMx & Gx & Ax & Mx & Bx & Ox & Tx & Rx & Hta & Hla & Hf). apply cfg_inj in Hcfg as (-> & ->).
  assert (Zx : length lsx = length ls) by (apply lkeep_len with (l := l); apply HMx).
  assert (Hmzx : msize (smem stx) = msize (smem st)) by (eapply ctx_msize; [exact HC|exact HMx]).
  cbn [app]. eapply wp_lget; [exact Tx|]. eapply wp_lget; [exact Mx|]. apply wp_r32. cbn [irel].
  destruct (Z.eq_dec i c) as [He|He].
  - (* done *)
    rewrite He in Rx, Hla, Hf |- *. rewrite Z.leb_refl. cbn [b2z]. apply wp_brif_eqz; [intros HH; discriminate|intros _]. unfold qloop, qblock. cbn [exit_block cont]. unfold setstk. cbn [clocals cstore cstack firstn app].
    rewrite (rows_stop _ _ _ _ _ Gx Hce) in Hf. cbn [mapF] in Hf. unfold bind, ret in Hf. rewrite app_nil_r in Hf. injection Hf as <-.
    eapply wp_lget; [exact Bx|]. eapply wp_lget; [exact Mx|]. apply wp_const. eapply wp_b32; [cbn [ibin]; rewrite Z.mod_small by (fold u; clear - Hcu Hc0 Hu4 Hrm Psz P2 HX0 Hlo; nia); reflexivity|].
    fold u. apply (HW _ (shost stx) lsx stx (sp2 + sz) [VI32 sp2; VI32 (c * u)] eq_refl). constructor; [exact HMx| | |reflexivity].
    + eapply rep_weaken; [|exact Rx]. intros x [(Hx1 & Hx2)|Hx]; [split; [lia|exact Hx2]|]. unfold seg in Hx. split; [clear - Hx Hcu; lia|]. eapply c_up; [exact HC|clear - Hx Hrg2; lia].
    + cbn [has_type]. split; [lia|exact Hta].
  - assert (Hlt : i < c) by (clear - Hi He; lia). rewrite (proj2 (Z.leb_gt c i)) by exact Hlt. cbn [b2z]. apply wp_brif_eqz; [intros _|intros HH; congruence].
    assert (Hall : Forall (fun q => i < seq_len (q_v q)) qs) by (pose proof (fewest_all qs 2147483647) as HA; fold c in HA; eapply Forall_impl; [|exact HA]; intros q Hq; cbv beta in Hq; eapply Z.lt_le_trans; [exact Hlt|exact Hq]).
    destruct (row_ex _ _ i qs (proj1 Hi) Gx Hall) as (vs & Hvs).
    replace (n0 - Z.to_nat i)%nat with (S (n0 - Z.to_nat (i + 1))) in Hf by (clear - Hlt Hn0' Hi; lia). rewrite (rows_step _ _ _ _ (proj1 Hi) Hvs) in Hf. cbn [mapF] in Hf.
    assert (HKx : callable L X F stx (sp2 + sz)) by (eapply ctx_callable with (n := 0); [eapply ctx_moved; [exact HC|exact Y5|exact HMx|clear; lia]|clear; lia]).
    rewrite !bind_assoc in Hf. unfold bind at 1 in Hf. destruct (apply_fn true funs g t vs (shost stx)) as [rs1|] eqn:Hap1; [|discriminate].
    assert (Hiu : 0 <= i * u /\ i * u + u <= sz) by (clear - Hcu Hlt Hi Hu4; nia).
    rewrite <- ?app_assoc. rewrite <- I2.
    eapply (Hrow qs i vs F sp2 (sp2 + sz) lsx stx [] _ _ rs1); [exact I1|exact Hvs|exact Gx|clear - Psz; lia|exact HKx|exact (proj1 Hi)|exact Hall|rewrite I2; exact Nos|rewrite I2; exact Lo5s|rewrite Zx; exact R6|exact Ax|exact Hap1| |].
    { intros cd ->. assert (Hrs : rs = Abort cd) by congruence. subst rs. cbn [exits] in HX. cbn. exact HX. }
    intros v h ls5 st5 ws5 -> Z5 K5 A5 Hb5 Hg5 Hh5 Hrv Htv. rewrite I2 in K5. rewrite <- Hh5 in Hf.
    assert (Hmz5 : msize (smem st5) = msize (smem st)) by (destruct Hb5 as (-> & _); exact Hmzx).
    rewrite Zx in Z5. rewrite <- ?app_assoc.
    assert (O5 : nth_error ls5 out = Some (VI32 (sp2 + i * u))) by (rewrite K5; [exact Ox|exact Lo5|exact Fo]).
    eapply (Hst _ ls5 _ st5 (sp2 + i * u) ws5); [exact O5|rewrite Z5; exact HL|eapply rep_typed; exact (Hrv (smem st5) (vis F sp2))|clear - Hiu Hlo Hrg2; lia|clear; lia|rewrite Hmz5; fold u; clear - Hiu Hrg2 Hrm HX0 P2 Psz; lia|].
    intros ls6 m6 K6 Ho6 Hw6. rewrite Z.add_0_r in Ho6, Hw6. fold u in Ho6. cbn [app].
    assert (Z6 : length ls6 = length ls) by (rewrite (lkeep_len _ _ _ K6); exact Z5).
    assert (K56 : forall j, live l5 j -> ~ In j os -> nth_error ls6 j = nth_error lsx j) by (intros j J1 J2; rewrite (lkeep_get _ _ _ _ K6 (lext_live _ _ _ Xv J1)); apply K5; assumption).
    eapply wp_lget; [rewrite (K56 _ Lo5 Fo); exact Ox|]. apply wp_const. fold u.
    eapply wp_b32; [cbn [ibin]; replace (sp2 + i * u + u) with (sp2 + (i + 1) * u) by (clear; lia); rewrite (Z.mod_small (sp2 + (i + 1) * u)) by (clear - Hu4 Hiu Hlo Hrg2 Hrm HX0 P2 Psz; lia); reflexivity|]. apply wp_lset.
    eapply wp_lget; [rewrite nth_lset_ne by auto; rewrite (K56 _ L3 Fi); exact Tx|]. apply wp_const.
    assert (Hi32 : 0 <= i + 1 < m32) by (clear - Hi Hcu Hlt Hu4 Hrm Psz P2 HX0 Hlo; nia).
    eapply wp_b32; [cbn [ibin]; rewrite (Z.mod_small (i + 1)) by exact Hi32; reflexivity|]. apply wp_ltee. apply wp_br. unfold qloop, setstk. cbn [clocals cstore cstack firstn].
    exists (c - (i + 1)). split; [clear - Hlt Hzi Hi; lia|]. set (ls7 := lset (lset ls6 out _) ix _).
    assert (K7 : forall j, j <> out -> j <> ix -> nth_error ls7 j = nth_error ls6 j) by (intros j J1 J2; unfold ls7; rewrite !nth_lset_ne by auto; reflexivity).
    assert (Hb6 : below sp2 (smem stx) m6) by (eapply below_trans; [|eapply below_weaken; [|exact Hb5]|eapply below_only; [exact Ho6|]]; [apply Z.le_refl|clear - Psz; lia|clear - Hiu; lia]).
    exists ls7, (with_mem st5 m6), (acc ++ [v]), (i + 1). split; [reflexivity|]. split; [clear - Hi Hlt; lia|]. split; [reflexivity|]. cbn [smem with_mem shost].
    split; [|split; [|split; [|split; [|split; [|split; [|split; [|split; [|split; [|split]]]]]]]]].
    + eapply moved_write; [|exact Ho6|clear - Hrg2 Hiu; lia]. eapply (moved_call l ls st sp _ lsx stx (sp2 + sz) ls7 st5 l); [exact HMx|apply lext_refl; exact Hw| |exact Hb5|exact Hg5].
      split; [unfold ls7; rewrite !lset_len; congruence|]. intros j Hj. rewrite K7; [apply K56; [exact (lext_live _ _ _ Y5 Hj)|apply Hos; exact Hj]| |].
      * intros ->. exact (N2 (lext_live _ _ _ Y3 Hj)).
      * intros ->. exact (N3 (lext_live _ _ _ Y4 Hj)).
    + eapply Forall_impl; [|exact Gx]. intros q. apply (seq_in_below F stx (with_mem st5 m6)). exact Hb6.
    + rewrite Forall_forall in *. intros q Hq. specialize (A5 q Hq). unfold at_elem in *. assert (Hqo : In (q_o q) os) by (rewrite <- I2; apply in_map; exact Hq).
      rewrite K7; [|intros He'; rewrite He' in Hqo; exact (Fo Hqo)|intros He'; rewrite He' in Hqo; exact (Fi Hqo)]. rewrite (lkeep_get _ _ _ _ K6); [exact A5|]. exact (lext_live _ _ _ Xv (Lo5s _ Hqo)).
    + rewrite K7 by auto. rewrite (K56 _ Lm5 Fm). exact Mx.
    + rewrite K7 by auto. rewrite (K56 _ Lb5 Fb). exact Bx.
    + unfold ls7. rewrite nth_lset_ne by auto. apply lset_same. rewrite Z6. exact Q3.
    + unfold ls7. apply lset_same. rewrite lset_len, Z6. exact Q4.
    + replace ((i + 1) * u) with (i * u + u) by (clear; lia). eapply (push_elem (smem st5) m6 (vis F sp2) n t acc v sp2 (i * u) ws5); [|apply Hrv|exact Ho6|exact Hw6| |rewrite Hmz5; clear - Hrm; lia|clear - Hu4 Hiu Hrg2 Hrm HX0 P2 Psz; lia|apply Hiu].
      * destruct Hb5 as (Hb51 & Hb52). eapply rep_frame; [exact Hb51| |intros x Hx; exact Hx|exact Rx]. intros x [(Hx & _)|Hx]; apply Hb52; [clear - Hx Psz; lia|unfold seg in Hx; clear - Hx Hiu Hu4; lia].
      * intros x (Hx & _) Hx2. unfold seg in Hx2. clear - Hx Hx2 Hiu. lia.
    + apply Forall_app. split; [exact Hta|constructor; [exact Htv|constructor]].
    + rewrite app_length. cbn [length]. clear - Hla. lia.
    + rewrite <- Hf. unfold bind, ret. destruct (mapF true funs g t _ (shost st5)) as [[ws h'|v' h'|cd]|]; try reflexivity. cbn. rewrite <- app_assoc. reflexivity.
Qed.
End Map.
