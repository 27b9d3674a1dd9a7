(** * Words between integers and strings: generated code (model and proof support) *)
From Coq Require Import ZArith String List Bool Lia Arith.
Import ListNotations.
From Verif Require Import Wasm Std StdEnv WasmLogic WasmTac Spec Mem MemFacts Bytes SpecBytes SpecUtf8 Clar Rep RepFacts ReadProofs Emit EmitFacts EmitProofs CallProofs
  ArithProofs BitProofs ArithFacts ParseProofs ParseIntProofs ParseSpecs PrintProofs PropStrings
  Ast SpecLang Lang Typing LangFacts LangBase LangCtl LangEarly LangMem LangSeq LangList LangArith LangCall SpecChain SpecConv.
Open Scope string_scope.
Open Scope list_scope.
Open Scope Z_scope.

(** ** The generated code; the cost charges are left out *)
Definition is_utf8 (t : ty) : bool := match t with TUtf8 _ => true | _ => false end.
Definition is_uint (t : ty) : bool := match t with TUInt => true | _ => false end.
(** words/conversion.rs 17-46, 59-87: the function is chosen by the type of the operand *)
Definition parse_fun (signed : bool) (t : ty) : string :=
  if is_utf8 t then (if signed then "stdlib.utf8-to-int" else "stdlib.utf8-to-uint")
  else if signed then "stdlib.string-to-int" else "stdlib.string-to-uint".
Definition e_parse (signed : bool) (t : ty) (a : frag) : frag := fun d B l =>
  let '(ca, l) := a d B l in (ca ++ [Call (parse_fun signed t)], l).
(** words/conversion.rs 100-130, 143-173 *)
Definition print_fun (utf8 : bool) (t : ty) : string :=
  if is_uint t then (if utf8 then "stdlib.uint-to-utf8" else "stdlib.uint-to-string")
  else if utf8 then "stdlib.int-to-utf8" else "stdlib.int-to-string".
Definition e_text (utf8 : bool) (t : ty) (a : frag) : frag := fun d B l =>
  let '(ca, l) := a d B l in
  let '(ro, _, cc, l) := create_call_stack_local (if utf8 then TUtf8 40 else TAscii 40) false true l in
  (ca ++ cc ++ [LGet ro; Call (print_fun utf8 t)], l).
Definition e_conv (w : conv) : ty -> frag -> frag :=
  match w with StringToInt => e_parse true | StringToUint => e_parse false | IntToAscii => e_text false | IntToUtf8 => e_text true end.
Fixpoint comp_cexp (S : list (string * fsig)) (rt : ty) (s : cexp) : frag :=
  match s with
  | XExpr e => compile S rt e
  | XConv w a => e_conv w (cexp_ty a) (comp_cexp S rt a)
  | XLet x a b => e_let x (cexp_ty a) (comp_cexp S rt a) (comp_cexp S rt b)
  | XIf c a b => e_if (cexp_ty a) (comp_cexp S rt c) (comp_cexp S rt a) (comp_cexp S rt b)
  end.

(** ** The text of a number *)
Lemma dec_snoc s c : dec_value (s ++ [c]) = 10 * dec_value s + (c - 48).
Proof. unfold dec_value. rewrite fold_left_app. reflexivity. Qed.
Lemma digits_S f n : digits (S f) n = if n <? 10 then [48 + n] else digits f (n / 10) ++ [48 + n mod 10].
Proof. reflexivity. Qed.
Lemma is_digit_48 d : 0 <= d < 10 -> is_digit (48 + d) = true.
Proof. intros H. unfold is_digit. rewrite (proj2 (Z.leb_le 48 _)), (proj2 (Z.leb_le _ 57)) by lia. reflexivity. Qed.
Lemma digits_canonical f : forall n, 0 <= n < 2 ^ Z.of_nat f -> canonical_nat n (digits (S f) n).
Proof.
  induction f as [|f IH]; intros n Hn; rewrite digits_S.
  - change (2 ^ Z.of_nat 0) with 1 in Hn. assert (n = 0) by lia. subst. repeat split; try discriminate. left. reflexivity.
  - destruct (Z.ltb_spec n 10) as [H10|H10].
    + split; [discriminate|]. split; [|split; [|left; reflexivity]].
      * cbn [forallb]. rewrite is_digit_48 by lia. reflexivity.
      * unfold dec_value. cbn [fold_left]. lia.
    + rewrite Nat2Z.inj_succ, Z.pow_succ_r in Hn by lia.
      assert (Hq : 0 < n / 10 < 2 ^ Z.of_nat f) by (Z.to_euclidean_division_equations; lia).
      destruct (IH (n / 10) ltac:(lia)) as (H1 & H2 & H3 & H4). set (q := digits (S f) (n / 10)) in *. clearbody q.
      pose proof (Z.mod_pos_bound n 10 ltac:(lia)) as Hm. pose proof (Z.div_mod n 10 ltac:(lia)) as Hd.
      split; [destruct q; discriminate|]. split; [|split].
      * rewrite forallb_app, H2. cbn [forallb andb]. rewrite is_digit_48 by lia. reflexivity.
      * rewrite dec_snoc, H3. lia.
      * right. destruct q as [|c q]; [contradiction|]. cbn [app hd]. destruct H4 as [H4|H4]; [|exact H4].
        destruct q; [|discriminate H4]. intros ->. unfold dec_value in H3. cbn in H3. lia.
Qed.
Lemma digits_enough g : forall m, 0 <= m < 2 * 2 ^ Z.of_nat g -> digits (S (S g)) m = digits (S g) m.
Proof.
  induction g as [|g IH]; intros m H; rewrite digits_S, (digits_S _ m).
  - change (2 ^ Z.of_nat 0) with 1 in H. rewrite (proj2 (Z.ltb_lt m 10)) by lia. reflexivity.
  - destruct (Z.ltb_spec m 10) as [|H1]; [reflexivity|]. rewrite Nat2Z.inj_succ, Z.pow_succ_r in H by lia. rewrite IH; [reflexivity|]. Z.to_euclidean_division_equations; lia.
Qed.
Lemma nat_text_canonical n : 0 <= n -> canonical_nat n (nat_text n).
Proof.
  intros Hn. unfold nat_text. destruct (Z.eq_dec n 0) as [->|Hz]; [repeat split; try discriminate; left; reflexivity|].
  pose proof (Z.log2_spec n ltac:(lia)) as (_ & H). pose proof (Z.log2_nonneg n) as H0.
  rewrite Z.pow_succ_r in H by lia. rewrite <- (Z2Nat.id (Z.log2 n)) in H by lia.
  rewrite <- digits_enough by lia. apply digits_canonical. rewrite Nat2Z.inj_succ, Z.pow_succ_r by lia. lia.
Qed.
Lemma text_canonical n : canonical n (text n).
Proof.
  unfold text. destruct (Z.ltb_spec n 0) as [H|H]; [right|left; split; [exact H|apply nat_text_canonical; exact H]].
  split; [exact H|]. eexists. split; [reflexivity|]. apply nat_text_canonical. lia.
Qed.
Lemma canonical_text n s : canonical n s -> s = text n.
Proof.
  intros H. pose proof (text_canonical n) as K. destruct H as [(H0 & H)|(H0 & r & -> & H)], K as [(K0 & K)|(K0 & r' & -> & K)]; try lia.
  - eapply canonical_nat_unique; eauto. - f_equal. eapply canonical_nat_unique; eauto.
Qed.
Lemma text_char n : Forall (fun c => c = 45 \/ 48 <= c <= 57) (text n).
Proof.
  assert (D : forall s, forallb is_digit s = true -> Forall (fun c => c = 45 \/ 48 <= c <= 57) s).
  { intros s Hs. apply Forall_forall. intros c Hc. rewrite forallb_forall in Hs. specialize (Hs c Hc). unfold is_digit in Hs. rewrite andb_true_iff, !Z.leb_le in Hs. auto. }
  destruct (text_canonical n) as [(_ & _ & H & _)|(_ & r & -> & _ & H & _)]; [auto|constructor; auto].
Qed.
Lemma text_len n : is_i128 n \/ is_u128 n -> Z.of_nat (length (text n)) <= 40.
Proof.
  intros Hn. assert (B : n < 2 ^ 128 /\ - n < 2 ^ 128) by (unfold is_i128, is_u128 in Hn; lia).
  destruct (text_canonical n) as [(_ & H)|(_ & r & -> & H)]; apply canonical_nat_39 in H; try lia; cbn [length]; lia.
Qed.

Section Words.
Context {HS : Type} {CH : chain HS} (E : env HS) (HE : has_std E).
Context (rt : ty) (L : list (ty * value * Z)) (X : Z) (HX0 : 0 <= X).
Notation wp := (wp E).
Notation impl := (impl E rt L X).
Notation ctx := (ctx L X).
Notation impl_next1 := (impl_next1 E rt L X).
Notation impl_fr := (impl_fr E rt L X).
Notation impl_ext := (impl_ext E rt L X).
Ltac fr_of H := let P := fresh "P" in pose proof (impl_fr _ _ _ _ _ H) as P.
Ltac ext_of H E X := let W := fresh in
  match type of E with ?c ?d ?B ?l = _ =>
    assert (W : lwf l) by (assumption || (eapply lext_wf; eassumption));
    pose proof (impl_ext _ _ _ _ _ _ _ _ _ _ H E W) as X; clear W end.
Ltac lenl := repeat match goal with H : lext _ _ |- _ => apply lext_len in H | H : moved _ _ _ _ _ _ _ _ |- _ => apply m_ls, lkeep_len in H end; lia.

(** ** [string-to-int?], [string-to-uint?] *)
Definition str_ty (t : ty) : Prop := match t with TAscii _ | TUtf8 _ => True | _ => False end.
Definition str_of (t : ty) (s : list Z) : value := if is_utf8 t then CUtf8 s else CAscii s.
Lemma rep_str (m : mem) (P : Z -> Prop) (t : ty) (v : value) (ws : list val) : rep m P t v ws -> has_type t v -> str_ty t -> exists o s, v = str_of t s /\
  ws = [VI32 o; VI32 (if is_utf8 t then 4 * Z.of_nat (length s) else Z.of_nat (length s))] /\ holds m o (if is_utf8 t then utf8_mem s else s) /\
  (is_utf8 t = true -> Forall (fun c => 0 <= c < 2 ^ 32) s).
Proof.
  intros Hr Ht Hs. destruct t; try contradiction; destruct v; cbn [has_type rep is_utf8 str_of] in *; try contradiction; destruct Hr as (o & -> & _ & _ & Hh & _); exists o; eexists; (split; [reflexivity|]).
  - split; [reflexivity|]. split; [exact Hh|discriminate].
  -
    assert (K : forall cs : list Z, flat_map (be_bytes 4) cs = utf8_mem cs).
    { intros l. unfold utf8_mem. apply flat_map_ext. intros c. rewrite LangArith.be4. reflexivity. }
    rewrite K in *. split; [do 3 f_equal; pose proof (utf8_mem_len cs); lia|]. split; [exact Hh|]. intros _.
    destruct Ht as (_ & Ht). eapply Forall_impl; [|exact Ht]. intros c [Hc|Hc]; lia.
Qed.
Definition parsed (signed : bool) (s : list Z) : value := if signed then some_num CInt (int_of_string s) else some_num CUInt (uint_of_string s).
Definition parsed_words (signed : bool) (s : list Z) : list val := if signed then vopt i128 (int_of_string s) else vopt u128 (uint_of_string s).
Definition fine (signed : bool) (s : list Z) : bool := if signed then fine_int s else fine_uint s.
Lemma parsed_rep (signed : bool) s m P : rep m P (TOpt (if signed then TInt else TUInt)) (parsed signed s) (parsed_words signed s) /\ has_type (TOpt (if signed then TInt else TUInt)) (parsed signed s).
Proof.
  unfold parsed, parsed_words, some_num. destruct signed.
  - assert (K : forall n, int_of_string s = Some n -> is_i128 n).
    { intros n. unfold int_of_string. destruct (match s with 45 :: r => option_map Z.opp (decimal r) | _ => decimal s end) as [z|]; [|discriminate].
      destruct ((- 2 ^ 127 <=? z) && (z <? 2 ^ 127)) eqn:Ez; [|discriminate]. intros H. injection H as <-. apply andb_prop in Ez as (E1 & E2). apply Z.leb_le in E1. apply Z.ltb_lt in E2. split; assumption. }
    destruct (int_of_string s) as [n|]; cbn [rep has_type vopt].
    + split; [|exact (K n eq_refl)]. eexists. split; [reflexivity|]. rewrite i128_nws. reflexivity.
    + split; [|exact I]. eexists. split; [reflexivity|]. repeat constructor; cbn; lia.
  - assert (K : forall n, uint_of_string s = Some n -> is_u128 n).
    { intros n. unfold uint_of_string, decimal. destruct s as [|c s']; [discriminate|]. destruct (forallb is_digit (c :: s')) eqn:Ed; [|discriminate]. destruct (Z.ltb_spec (dec_value (c :: s')) (2 ^ 128)); [|discriminate].
      intros Hi. injection Hi as <-. split; [|assumption]. apply dec_bound in Ed. lia. }
    destruct (uint_of_string s) as [n|]; cbn [rep has_type vopt].
    + split; [|exact (K n eq_refl)]. eexists. split; [reflexivity|]. rewrite u128_nws by exact (K n eq_refl). reflexivity.
    + split; [|exact I]. eexists. split; [reflexivity|]. repeat constructor; cbn; lia.
Qed.
Lemma fine_int_spec s : fine_int s = true -> s <> [] /\ ires s = int_of_string s.
Proof.
  unfold fine_int. rewrite andb_true_iff, orb_true_iff, Nat.leb_le, negb_true_iff, Nat.eqb_neq. change (digits_of s) with (unsign s). intros (H1 & H2). split; [destruct s; [cbn in H1; congruence|discriminate]|].
  destruct (Nat.le_gt_cases (length (unsign s)) 39) as [Hl|Hl]; [apply ires_spec; exact Hl|]. rewrite ires_long by exact Hl. destruct H2 as [H2|H2]; [lia|]. destruct (int_of_string s); [discriminate|reflexivity].
Qed.
Lemma fine_uint_spec s : fine_uint s = true -> ures s = uint_of_string s.
Proof.
  unfold fine_uint. destruct (Nat.leb_spec (length s) 39) as [Hl|Hl].
  - rewrite negb_true_iff. intros Hw. apply ures_spec; [exact Hl|]. intros (H1 & H2 & H3). unfold wraps in Hw. rewrite H1, (proj2 (Z.leb_le _ _) H2), (proj2 (Z.leb_le _ _) H3) in Hw. discriminate.
  - rewrite ures_long by exact Hl. destruct (uint_of_string s); [discriminate|reflexivity].
Qed.
Lemma parse_wpf signed t s o (st : store HS) (R : result HS -> Prop) : str_ty t -> fine signed s = true -> holds (smem st) o (if is_utf8 t then utf8_mem s else s) ->
  (is_utf8 t = true -> Forall (fun c => 0 <= c < 2 ^ 32) s) -> R (RVals (parsed_words signed s) st) ->
  wpf E (parse_fun signed t) [VI32 o; VI32 (if is_utf8 t then 4 * Z.of_nat (length s) else Z.of_nat (length s))] st R.
Proof.
  intros Ht Hf Hh Hs HR. unfold parse_fun, parsed_words, fine in *. pose proof (utf8_mem_len s) as U. destruct Hh as (Ho & Hsz & Hb).
  assert (Hh : holds (smem st) o (if is_utf8 t then utf8_mem s else s)) by (split; auto).
  destruct signed.
  - apply fine_int_spec in Hf as (Hne & Hf). rewrite <- Hf in HR. assert (0 < Z.of_nat (length s)) by (destruct s; [congruence|cbn [length]; lia]).
    destruct (is_utf8 t); [apply (utf8_to_int_wp E HE)|apply (string_to_int_wp E HE)]; auto; lia.
  - apply fine_uint_spec in Hf. rewrite <- Hf, <- vopt_vu in HR. destruct (is_utf8 t); [apply (utf8_to_uint_wp E HE)|apply (string_to_uint_wp E HE)]; auto.
Qed.
Lemma parse_ok (signed : bool) G t fr (c : frag) (m : venv -> M HS value) : str_ty t -> impl G t fr c m ->
  impl G (TOpt (if signed then TInt else TUInt)) fr (e_parse signed t c) (fun r => bind (m r) (do_conv true (if signed then StringToInt else StringToUint))).
Proof.
  intros Ht IH. fr_of IH. split; [lia|]. intros d B l code l' HC Hw. unfold e_parse in HC.
  destruct (c d B l) as [ch l1] eqn:Ech. injection HC as <- <-. ext_of IH Ech X1. split; [exact X1|].
  intros F r js ls k st sp Q rs Hm HC HL HX HW. rewrite <- !app_assoc.
  eapply (impl_next1 _ _ _ _ _ _ _ _ _ _ IH Ech F F); [eapply moved_refl; exact HC| |apply lext_refl; exact Hw|auto|exact HC|exact Hm|exact HX|lenl|]; [lia|].
  intros v h ls2 st2 sp2 ws HG HM2 Hm2 HLv. cbn [Z.add] in HM2.
  destruct (rep_str _ _ _ _ _ (g_rep _ _ _ _ _ _ _ _ _ _ _ _ _ HG) (g_type _ _ _ _ _ _ _ _ _ _ _ _ _ HG) Ht) as (o & s & -> & -> & Hh & Hs).
  assert (K : fine signed s = true /\ rs = Done (parsed signed s) (shost st2)).
  { unfold str_of, do_conv, parsed, fine, ret, bad in *. cbn [negb orb] in Hm2. destruct (is_utf8 t), signed; (destruct (fine_int s) || idtac); (destruct (fine_uint s) || idtac); split; congruence. }
  destruct K as (Hf & ->). cbn [app].
  eapply (wp_call_all E _ 2); [|reflexivity|].
  { unfold fun_arity, parse_fun. destruct HE as (HE1 & _). destruct (is_utf8 t), signed; erewrite HE1 by reflexivity; reflexivity. }
  apply parse_wpf; auto. unfold qcall. cbn [ret_call cont].
  destruct (parsed_rep signed s (smem st2) (vis F sp2)) as (R1 & R2).
  eapply (HW _ (shost st2) ls2 st2 sp2 _ eq_refl). constructor; [exact HM2|exact R1|exact R2|reflexivity].
Qed.

(** ** [int-to-ascii], [int-to-utf8] *)
Definition text_size (utf8 : bool) : Z := if utf8 then 160 else 40.
Definition text_ty (utf8 : bool) : ty := if utf8 then TUtf8 40 else TAscii 40.
Definition is_num (t : ty) : Prop := match t with TInt | TUInt => True | _ => False end.
Lemma text_wpf (utf8 : bool) t n o (st : store HS) (R : result HS -> Prop) : is_num t -> has_type t (match t with TInt => CInt n | _ => CUInt n end) ->
  4 <= o -> o + text_size utf8 <= msize (smem st) -> msize (smem st) + 4 < m32 ->
  (forall m', only_changes (smem st) m' o (text_size utf8) -> holds m' o (if utf8 then utf8_mem (text n) else text n) ->
     R (RVals [VI32 o; VI32 (if utf8 then 4 * Z.of_nat (length (text n)) else Z.of_nat (length (text n)))] (with_mem st m'))) ->
  wpf E (print_fun utf8 t) (nws n ++ [VI32 o]) st R.
Proof.
  intros Ht Hty Ho Hsz H32 HR. change m32 with (2 ^ 32) in H32. unfold print_fun, text_size in *.
  destruct t; try contradiction; cbn [is_uint has_type] in *.
  - pose proof (text_len n (or_introl Hty)) as HL. rewrite <- i128_nws. destruct utf8.
    + destruct (C13_int_to_utf8 E HE n o st Hty) as (s & m' & H1 & H2 & H3 & H4); [split; [lia|split; lia]|]. apply canonical_text in H1 as ->.
      eapply calls_wpf; [exact H4|]. apply HR; [eapply only_weaken; [exact H3|lia|lia]|exact H2].
    + destruct (C13_int_to_ascii E HE n o st Hty) as (s & m' & H1 & H2 & H3 & H4); [split; [lia|split; lia]|]. apply canonical_text in H1 as ->.
      eapply calls_wpf; [exact H4|]. apply HR; [eapply only_weaken; [exact H3|lia|lia]|exact H2].
  - pose proof (text_len n (or_intror Hty)) as HL. rewrite <- u128_nws by exact Hty. assert (0 <= n) by apply Hty. destruct utf8.
    + destruct (C13_uint_to_utf8 E HE n o st Hty) as (s & m' & H1 & H2 & H3 & H4); [split; [lia|split; lia]|]. assert (s = text n) as -> by (apply canonical_text; left; auto).
      eapply calls_wpf; [exact H4|]. apply HR; [eapply only_weaken; [exact H3|lia|lia]|exact H2].
    + destruct (C13_uint_to_ascii E HE n o st Hty) as (s & m' & H1 & H2 & H3 & H4); [split; [lia|split; lia]|]. assert (s = text n) as -> by (apply canonical_text; left; auto).
      eapply calls_wpf; [exact H4|]. apply HR; [eapply only_weaken; [exact H3|lia|lia]|exact H2].
Qed.
(** memory that ends four bytes before 4 GiB (it is a number of pages) and the reserved bytes
    at its beginning *)
Context (Hcap : chain_cap (HS := HS) + 4 < m32) (Hlow : exists b, In (TBuff 1, CBuff [b], 3) L).
Lemma ctx_low G B r F l ls (st : store HS) sp n : ctx G B r F l ls st sp n -> 4 <= sp.
Proof.
  intros HC. destruct Hlow as (b & Hb). pose proof (c_lits _ _ _ _ _ _ _ _ _ _ _ HC) as HF. rewrite Forall_forall in HF. destruct (HF _ Hb) as (_ & o & Ho & _ & _ & _ & Hin).
  injection Ho as <-. destruct (Hin 3 ltac:(cbn; lia)) as (K & _). lia.
Qed.
Lemma text_ok (utf8 : bool) G t fr (c : frag) (m : venv -> M HS value) : is_num t -> impl G t fr c m ->
  impl G (text_ty utf8) (fr + text_size utf8) (e_text utf8 t c) (fun r => bind (m r) (do_conv true (if utf8 then IntToUtf8 else IntToAscii))).
Proof.
  intros Ht IH. fr_of IH. assert (TS : 0 < text_size utf8) by (destruct utf8; cbn; lia). split; [lia|]. intros d B l code l' HC Hw. unfold e_text in HC.
  destruct (c d B l) as [ch l1] eqn:Ech. ext_of IH Ech X1. fold (text_ty utf8) in HC.
  destruct (create_call_stack_local (text_ty utf8) false true l1) as [[[o sz] cc] l2] eqn:Ec. injection HC as <- <-.
  assert (Hsz : sz = text_size utf8) by (unfold create_call_stack_local in Ec; destruct (add_local T32 l1); injection Ec as _ <- _ _; destruct utf8; reflexivity). subst sz.
  destruct (reserve_run E L X HX0 _ _ _ _ _ _ _ _ Ec (lext_wf _ _ X1)) as (Xc & Lo & No & Hres).
  assert (X02 : lext l l2) by (eapply lext_trans; eauto). split; [exact X02|].
  intros F r js ls k st sp Q rs Hm HC HL HX HW. rewrite <- !app_assoc.
  pose proof (c_lo _ _ _ _ _ _ _ _ _ _ _ HC) as Hlo. pose proof (c_room _ _ _ _ _ _ _ _ _ _ _ HC) as Hrm.
  pose proof (c_cap _ _ _ _ _ _ _ _ _ _ _ HC) as Hcp. pose proof (ctx_low _ _ _ _ _ _ _ _ _ HC) as H4.
  eapply (impl_next1 _ _ _ _ _ _ _ _ _ _ IH Ech F F); [eapply moved_refl; exact HC| |apply lext_refl; exact Hw|auto|eapply ctx_less; [exact HC|lia]|exact Hm|exact HX|lenl|]; [lia|].
  intros v h ls2 st2 sp2 ws HG HM2 Hm2 HLv. cbn [Z.add] in HM2.
  pose proof (m_rng _ _ _ _ _ _ _ _ HM2) as Hr2.
  assert (HC2 : ctx G B r F l1 ls2 st2 sp2 (text_size utf8)) by (eapply ctx_moved; [exact HC|exact X1|exact HM2|lia]).
  pose proof (g_rep _ _ _ _ _ _ _ _ _ _ _ _ _ HG) as Hrep. pose proof (g_type _ _ _ _ _ _ _ _ _ _ _ _ _ HG) as Hty.
  assert (K : exists n, v = (match t with TInt => CInt n | _ => CUInt n end) /\ ws = nws n /\ rs = Done (if utf8 then CUtf8 (text n) else CAscii (text n)) (shost st2)).
  { destruct t; try contradiction; destruct v; cbn [has_type rep] in Hty, Hrep; try contradiction; eexists; (split; [reflexivity|]); (split; [exact Hrep|]); unfold do_conv, ret in Hm2; destruct utf8; congruence. }
  destruct K as (n & -> & -> & ->).
  eapply Hres; [exact HC2|lia|lenl|]. intros ls3 st3 Hh Hmem HM3 Hol HC3.
  cbn [app]. eapply wp_lget; [exact Hol|].
  change (VI32 sp2 :: rev (nws n) ++ k) with (rev (nws n ++ [VI32 sp2]) ++ k).
  eapply (wp_call_all E _ 3); [|reflexivity|].
  { unfold fun_arity, print_fun. destruct HE as (HE1 & _). destruct (is_uint t), utf8; erewrite HE1 by reflexivity; reflexivity. }
  assert (HM03 : moved l ls st sp (fr + text_size utf8) ls3 st3 (sp2 + text_size utf8)) by (eapply moved_trans; [exact X1|exact HM2|exact HM3]).
  pose proof (ctx_msize _ _ _ _ _ _ _ _ _ _ _ _ _ _ _ HC HM03) as Hmz.
  apply text_wpf; auto; try (rewrite Hmz; lia); try lia.
  intros m' Hoc Hho. unfold qcall. cbn [ret_call cont].
  assert (HLn : Z.of_nat (length (text n)) <= 40) by (apply text_len; destruct t; try contradiction; [left|right]; exact Hty).
  assert (Hms : msize m' = msize (smem st3)) by apply Hoc.
  assert (HIN : inside (vis F (sp2 + text_size utf8)) sp2 (text_size utf8)) by (intros x Hx; split; [lia|eapply c_up; [exact HC2|lia]]).
  eapply (HW _ _ ls3 (with_mem st3 m') (sp2 + text_size utf8) _ eq_refl). constructor; [|cbn [smem with_mem]| |exact Hh].
  - eapply moved_write; [exact HM03|exact Hoc|lia].
  - destruct utf8; cbn [text_ty rep]; exists sp2.
    + assert (U : flat_map (be_bytes 4) (text n) = utf8_mem (text n)) by (unfold utf8_mem; apply flat_map_ext; intros c0; rewrite LangArith.be4; reflexivity).
      rewrite U. pose proof (utf8_mem_len (text n)) as UL. cbn [text_size] in *. split; [do 3 f_equal; lia|]. split; [lia|]. split; [lia|]. split; [exact Hho|]. intros x Hx. apply HIN. lia.
    + cbn [text_size] in *. split; [reflexivity|]. split; [lia|]. split; [lia|]. split; [exact Hho|]. intros x Hx. apply HIN. lia.
  - pose proof (text_char n) as HT. destruct utf8; cbn [text_ty has_type]; (split; [exact HLn|]); (eapply Forall_impl; [|exact HT]); intros x Hx; cbv beta in Hx; unfold scalar, clarity_ascii; clear - Hx; lia.
Qed.
End Words.
