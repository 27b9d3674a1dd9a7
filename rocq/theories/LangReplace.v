(** * Correctness of emitted expression code: replace-at? (proof support) *)
From Coq Require Import ZArith String List Bool Lia.
Import ListNotations.
From Verif Require Import ReadProofs Wasm Std StdEnv WasmLogic WasmTac Mem MemFacts Bytes Spec SpecBytes SpecUtf8 ArithProofs Clar Rep RepFacts Emit EmitFacts EmitProofs Equal EqualProofs
  CallProofs ArgProofs Ast SpecLang Lang Typing LangFacts LangBase LangCtl LangEarly LangMem LangSeq LangList LangConcat LangSlice LangLaid.
Open Scope string_scope.
Open Scope list_scope.
Open Scope Z_scope.

(** the code writing one element at the address in [off] *)
Definition put_code (t : ty) (off : nat) (l : lst) : list instr * lst :=
  match t with
  | TList _ te => write_to_memory te off 0 l
  | _ => let '(src, l) := add_local T32 l in
      ([Drop; LSet src; LGet off; LGet src; Const (VI32 (elem_size t)); MemCopy], l)
  end.

Lemma index_flag u v n : 1 <= u -> 0 <= v <= 1048576 -> v * u < m32 -> 0 <= n < 2 ^ 128 -> forall big, big = (1048576 <? n mod 2 ^ 64) || (0 <? n / 2 ^ 64 mod 2 ^ 64) ->
  ((v * u <=? (n mod 2 ^ 64 * u) mod m64) || big) = negb (n <? v) /\ (n < v -> (n mod 2 ^ 64 * u) mod m64 = n * u).
Proof.
  intros Hu Hv Hvu Hn big Hb. destruct (big_index n Hn big Hb) as (G1 & G2). clear Hb. destruct (Z.ltb_spec n v) as [Hin|Hout]; cbn [negb].
  - rewrite (G2 ltac:(lia)), orb_false_r. rewrite (Z.mod_small n) by lia. assert (A : 0 <= n * u < m64) by (clear - Hu Hvu Hin Hn; nia). rewrite Z.mod_small by exact A.
    split; [|reflexivity]. apply Z.leb_gt. clear - Hu Hin. nia.
  - split; [|lia]. destruct big; [apply orb_true_r|]. rewrite orb_false_r. destruct (G1 eq_refl) as (G3 & ->). apply Z.leb_le.
    destruct (Z.eq_dec v 0) as [->|H0]; [rewrite Z.mul_0_l; apply Z.mod_pos_bound; lia|].
    assert (A : 0 <= n * u < m64) by (assert (u < m32) by nia; nia). rewrite Z.mod_small by exact A. clear - Hu Hout. nia.
Qed.

Section Replace.
Context {HS : Type} {CH : chain HS} (E : env HS) (HE : has_std E) (rt : ty) (L : list (ty * value * Z)) (X : Z) (HX0 : 0 <= X).
Notation wp := (wp E).
Notation impl := (impl E rt L X).
Notation ctx := (ctx L X).
Notation impl_next1 := (impl_next1 E rt L X).
Notation impl_fr := (impl_fr E rt L X).
Notation impl_ext := (impl_ext E rt L X).
Ltac fr_of H := let P := fresh "P" in pose proof (impl_fr _ _ _ _ _ H) as P.
Ltac ext_of H E X := let W := fresh in
  match type of E with ?c ?d ?B ?l = _ =>
    assert (W : lwf l) by (assumption || (eapply lext_wf; eassumption));
    pose proof (impl_ext _ _ _ _ _ _ _ _ _ _ H E W) as X; clear W end.
Ltac lenl := repeat match goal with H : lext _ _ |- _ => apply lext_len in H | H : moved _ _ _ _ _ _ _ _ |- _ => apply m_ls, lkeep_len in H end; lia.

Lemma put_code_ok t off l cw l' : put_code t off l = (cw, l') -> lwf l -> live l off -> is_seq t = true -> lext l l' /\
  forall (P : Z -> Prop) w wx a js ls k (st : store HS) Q, rep (smem st) P (elem_ty t) w wx -> has_type (elem_ty t) w -> seq_len (single t w) = 1 ->
    nth_error ls off = Some (VI32 a) -> (llen l' <= length ls)%nat -> 0 <= a -> a + unit_size t <= msize (smem st) < m32 -> (forall x, P x -> ~ seg a (unit_size t) x) ->
    (forall ls' m', lkeep l ls ls' -> only_changes (smem st) m' a (unit_size t) -> laid m' P t (single t w) a -> wp js (mkcfg ls' k (with_mem st m')) Q) ->
    wp (cw ++ js) (mkcfg ls (rev wx ++ k) st) Q.
Proof.
  intros HC Hw Ho Ht.
  assert (HB : forall src l1, add_local T32 l = (src, l1) -> (exists n, t = TBuff n \/ t = TAscii n \/ t = TUtf8 n) ->
    lext l l1 /\ forall (P : Z -> Prop) w wx a js ls k (st : store HS) Q, rep (smem st) P (elem_ty t) w wx -> has_type (elem_ty t) w -> seq_len (single t w) = 1 ->
    nth_error ls off = Some (VI32 a) -> (llen l1 <= length ls)%nat -> 0 <= a -> a + unit_size t <= msize (smem st) < m32 -> (forall x, P x -> ~ seg a (unit_size t) x) ->
    (forall ls' m', lkeep l ls ls' -> only_changes (smem st) m' a (unit_size t) -> laid m' P t (single t w) a -> wp js (mkcfg ls' k (with_mem st m')) Q) ->
    wp ([Drop; LSet src; LGet off; LGet src; Const (VI32 (elem_size t)); MemCopy] ++ js) (mkcfg ls (rev wx ++ k) st) Q).
  { intros src l1 Ea Hk. destruct (add_ok _ _ _ _ Ea Hw) as (A1 & A2 & A3). split; [exact A1|].
    intros P w wx a js ls k st Q Hr Hty Hs1 Hoff HL Ha Hb HP HW. assert (Hes : elem_size t = unit_size t) by reflexivity. rewrite Hes.
    assert (Hst : single t w = w) by (destruct Hk as (n & [->|[->| ->]]); reflexivity). rewrite Hst in *.
    assert (Hse : is_seq (elem_ty t) = true /\ unit_size (elem_ty t) = unit_size t) by (destruct Hk as (n & [->|[->| ->]]); split; reflexivity). destruct Hse as (Hse & Hue).
    destruct (rep_seq _ _ _ _ _ Hse Hr) as (o & -> & B1 & B2 & B3 & B4). rewrite Hs1, Hue, Z.mul_1_l in *.
    assert (D : src <> off) by (intros ->; exact (A3 Ho)). assert (I1 : (src < length ls)%nat) by (destruct A2; lia).
    cbn [rev app]. apply wp_drop. apply wp_lset. eapply wp_lget; [rewrite nth_lset_ne by auto; exact Hoff|]. eapply wp_lget; [apply lset_same; exact I1|]. apply wp_const.
    apply wp_memcopy; [lia|lia|]. apply HW; [apply lkeep_lset; exact A3|apply only_mcopy|].
    pose proof (laid_copy _ _ _ _ _ a _ Hse Hr HP Ha ltac:(lia)) as HLd. destruct Hk as (n & [->|[->| ->]]); exact HLd. }
  unfold put_code in HC. destruct t; try discriminate.
  - destruct (add_local T32 l) as [src l1] eqn:Ea. injection HC as <- <-. apply HB; eauto.
  - destruct (add_local T32 l) as [src l1] eqn:Ea. injection HC as <- <-. apply HB; eauto.
  - destruct (add_local T32 l) as [src l1] eqn:Ea. injection HC as <- <-. apply HB; eauto.
  - destruct (write_memory_ok E _ _ _ _ _ _ HC Hw Ho) as (Xw & Hst). split; [exact Xw|].
    intros P w wx a js ls k st Q Hr Hty Hs1 Hoff HL Ha Hb HP HW. cbn [elem_ty unit_size single] in *.
    eapply Hst; [exact Hoff|exact HL|eapply rep_typed; exact Hr|exact Ha|lia|lia|]. intros ls' m' K1 O1 W1. rewrite Z.add_0_r in *.
    apply HW; [exact K1|exact O1|]. cbn [laid rep_elems]. split; [|exact I]. exists (blank t wx). split; [exact W1|]. apply blank_rep.
    destruct O1 as (O1 & O2). eapply rep_frame; [exact O1| |intros x Hx; exact Hx|exact Hr]. intros x Hx. apply O2. apply HP in Hx. unfold seg in Hx. lia.
Qed.

Definition chk_code (t : ty) (l : lst) : list instr * lst :=
  match t with
  | TList _ _ => ([], l)
  | _ => let '(rl, l) := add_local T32 l in
      ([LTee rl; Eqz32; If 0 0 [Const (VI32 5); Call "stdlib.runtime-error"] []; LGet rl], l)
  end.
(** the check of the replacement *)
Lemma chk_ok t l cc l' : chk_code t l = (cc, l') -> lwf l -> is_seq t = true -> lext l l' /\
  forall (P : Z -> Prop) v w wx js ls k (st : store HS) (Q : outcome HS -> Prop), rep (smem st) P (elem_ty t) w wx -> has_type t v -> has_type (elem_ty t) w ->
    (exists x, gget (sglob st) "runtime-error-code" = Some x) -> (llen l' <= length ls)%nat ->
    (empty_for v w = true -> forall st', gget (sglob st') "runtime-error-code" = Some (VI32 err_buff_len) -> Q (OTrap TUnreachable st')) ->
    (empty_for v w = false -> seq_len (single t w) = 1 -> forall ls', lkeep l ls ls' -> wp js (mkcfg ls' (rev wx ++ k) st) Q) ->
    wp (cc ++ js) (mkcfg ls (rev wx ++ k) st) Q.
Proof.
  intros HC Hw Ht.
  assert (HB : forall rl l1, add_local T32 l = (rl, l1) -> (exists n, t = TBuff n \/ t = TAscii n \/ t = TUtf8 n) -> lext l l1 /\
    forall (P : Z -> Prop) v w wx js ls k (st : store HS) (Q : outcome HS -> Prop), rep (smem st) P (elem_ty t) w wx -> has_type t v -> has_type (elem_ty t) w ->
    (exists x, gget (sglob st) "runtime-error-code" = Some x) -> (llen l1 <= length ls)%nat ->
    (empty_for v w = true -> forall st', gget (sglob st') "runtime-error-code" = Some (VI32 err_buff_len) -> Q (OTrap TUnreachable st')) ->
    (empty_for v w = false -> seq_len (single t w) = 1 -> forall ls', lkeep l ls ls' -> wp js (mkcfg ls' (rev wx ++ k) st) Q) ->
    wp ([LTee rl; Eqz32; If 0 0 [Const (VI32 5); Call "stdlib.runtime-error"] []; LGet rl] ++ js) (mkcfg ls (rev wx ++ k) st) Q).
  { intros rl l1 Ea Hk. destruct (add_ok _ _ _ _ Ea Hw) as (A1 & A2 & A3). split; [exact A1|].
    intros P v w wx js ls k st Q Hr Htv Htw (x & Herr) HL HE1 HW.
    assert (Hse : is_seq (elem_ty t) = true /\ unit_size (elem_ty t) = unit_size t /\ 1 <= unit_size t /\ single t w = w) by (destruct Hk as (n & [->|[->| ->]]); cbn; repeat split; lia). destruct Hse as (Hse & Hue & Hu1 & Hsw).
    pose proof (seq_type_len _ _ Hse Htw) as Hl1. assert (Hm1 : seq_max (elem_ty t) = 1) by (destruct Hk as (n & [->|[->| ->]]); reflexivity). rewrite Hm1 in Hl1.
    assert (Hem : empty_for v w = (seq_len w =? 0)).
    { destruct Hk as (n & [->|[->| ->]]); destruct v; cbn [has_type] in Htv; try contradiction; destruct w; cbn [elem_ty has_type] in Htw; try contradiction; cbn [empty_for seq_len];
        match goal with |- match ?l with [] => _ | _ => _ end = _ => destruct l; reflexivity end. }
    destruct (rep_seq _ _ _ _ _ Hse Hr) as (o & -> & B1 & B2 & B3 & B4). rewrite Hue in *. assert (I1 : (rl < length ls)%nat) by (destruct A2; lia).
    cbn [rev app]. apply wp_ltee. apply wp_eqz32. apply wp_if0. rewrite Hem, Hsw in *. destruct (Z.eqb_spec (seq_len w) 0) as [H0|H0].
    - rewrite H0, Z.mul_0_l. cbn [Z.eqb b2z]. apply wp_const. wcall HE. apply (runtime_error_wp E HE). unfold qcall, cont, ret_call, err, qblock, exit_block, cont.
      apply HE1; [reflexivity|]. cbn [sglob with_glob]. eapply gget_set. exact Herr.
    - assert (H1 : seq_len w = 1) by lia. rewrite H1, Z.mul_1_l in *. rewrite (proj2 (Z.eqb_neq (unit_size t) 0)) by lia. cbn [Z.eqb b2z]. apply qb_done. cbn [app].
      eapply wp_lget; [apply lset_same; exact I1|]. apply (HW eq_refl eq_refl). apply lkeep_lset. exact A3. }
  unfold chk_code in HC. destruct t; try discriminate.
  - destruct (add_local T32 l) as [src l1] eqn:Ea. injection HC as <- <-. apply HB; eauto.
  - destruct (add_local T32 l) as [src l1] eqn:Ea. injection HC as <- <-. apply HB; eauto.
  - destruct (add_local T32 l) as [src l1] eqn:Ea. injection HC as <- <-. apply HB; eauto.
  - injection HC as <- <-. split; [apply lext_refl; exact Hw|]. intros P v w wx js ls k st Q Hr Htv Htw Herr HL HE1 HW. cbn [app].
    destruct v; cbn [has_type] in Htv; try contradiction. apply HW; [reflexivity|reflexivity|apply lkeep_refl].
Qed.

Lemma e_replace_at_eq t tb a i b d B l : is_seq t = true -> e_replace_at t tb a i b d B l =
  let '(len, l) := add_local T32 l in
  let '(num, l) := add_local T32 l in
  let '(dest, sz, cc, l) := create_call_stack_local t false true l in
  let '(ca, l) := a d B l in
  let '(ci, l) := i d B l in
  let '(ov, l) := add_local T32 l in
  let '(ix, l) := add_local T64 l in
  let '(cb, l) := b d B l in
  let '(cchk, l) := chk_code t l in
  let '(off, l) := add_local T32 l in
  let '(cw, l) := put_code t off l in
  (cc ++ [LGet dest] ++ ca ++ [LTee len; LGet len] ++ count_code t ++ [LSet num; MemCopy; LGet len; ExtU] ++ ci ++
   [Const (VI64 0); R64 GtU; LSet ov; LTee ix; Const (VI64 (1024 * 1024)); R64 GtU; LGet ov; B32 Or; LSet ov; LGet ix] ++
   index_code t ++ [LTee ix; R64 LeU; LGet ov; B32 Or; LSet ov] ++ cb ++ cchk ++
   [LGet ov;
    If (length (clar2wasm_ty tb)) 3
      (drop_value (elem_ty t) ++ [Const (VI32 0); Const (VI32 0); Const (VI32 0)])
      ([LGet ix; Wrap; LGet dest; B32 Add; LSet off] ++ cw ++ [Const (VI32 1); LGet dest; LGet len])], l).
Proof. intros Ht. destruct t; try discriminate; reflexivity. Qed.

Lemma replace_at_ok G t tb fa fi fb a i b ma mi mb strict : is_seq t = true -> ty_ok t -> strict = true -> widens tb (elem_ty t) = true ->
  impl G t fa a ma -> impl G TUInt fi i mi -> impl G tb fb b mb ->
  impl G (TOpt t) (call_stack_size t false true + fa + fi + fb) (e_replace_at t tb a i b)
    (fun r => bind (ma r) (fun v => bind (mi r) (fun x => bind (mb r) (fun w =>
       match x with
       | CUInt n =>
           if n <? seq_len v
           then if empty_for v w then abort err_buff_len else of_opt (option_map CSome (seq_put v n w))
           else unless strict (fun _ => empty_for v w) (ret CNone)
       | _ => bad
       end)))).
Proof.
  intros Ht Hok -> Wb HA HB HB0. pose proof (impl_widen _ _ _ _ _ _ _ _ _ _ HB0 Wb) as HJ. clear HB0. rewrite (seq_size _ Ht).
  fr_of HA. fr_of HB. fr_of HJ. pose proof (unit_nonneg t) as P3.
  assert (P4 : 0 <= seq_max t) by (destruct t; try discriminate; cbn [ty_ok seq_max] in *; lia).
  assert (P5 : 0 <= seq_max t * unit_size t) by nia.
  split; [lia|]. intros d B l code l' HC Hw. rewrite (e_replace_at_eq _ _ _ _ _ _ _ _ Ht) in HC. rewrite <- (widens_wasm _ _ Wb) in HC.
  destruct (add_local T32 l) as [len l1] eqn:E1. destruct (add_local T32 l1) as [num l2] eqn:E2. destruct (create_call_stack_local t false true l2) as [[[dest sz] cc] l3] eqn:Ec.
  destruct (a d B l3) as [ca l4] eqn:Ea. destruct (i d B l4) as [ci l5] eqn:Ei. destruct (add_local T32 l5) as [ov l6] eqn:E3. destruct (add_local T64 l6) as [ix l7] eqn:E4.
  destruct (b d B l7) as [cb l8] eqn:Eb. destruct (chk_code t l8) as [cchk l9] eqn:Ek. destruct (add_local T32 l9) as [off l10] eqn:E5. destruct (put_code t off l10) as [cw l11] eqn:Ew.
  pose proof (f_equal fst HC) as HC1; pose proof (f_equal snd HC) as HC2; cbn [fst snd] in HC1, HC2; clear HC; subst code l'.
  assert (Hsz : sz = seq_max t * unit_size t) by (rewrite <- seq_size by exact Ht; unfold create_call_stack_local in Ec; destruct (add_local T32 l2); congruence).
  destruct (add_ok _ _ _ _ E1 Hw) as (X1 & L1 & N1). destruct (add_ok _ _ _ _ E2 (lext_wf _ _ X1)) as (X2 & L2 & N2).
  destruct (reserve_run E L X HX0 _ _ _ _ _ _ _ _ Ec (lext_wf _ _ X2)) as (Xc & Ld & Nd & Hres). ext_of HA Ea Xa. ext_of HB Ei Xi.
  destruct (add_ok _ _ _ _ E3 (lext_wf _ _ Xi)) as (X3 & L3 & N3). destruct (add_ok _ _ _ _ E4 (lext_wf _ _ X3)) as (X4 & L4 & N4). ext_of HJ Eb Xb.
  destruct (chk_ok _ _ _ _ Ek (lext_wf _ _ Xb) Ht) as (Xk & Hchk). destruct (add_ok _ _ _ _ E5 (lext_wf _ _ Xk)) as (X5 & L5 & N5).
  destruct (put_code_ok _ _ _ _ _ Ew (lext_wf _ _ X5) L5 Ht) as (Xw & Hput).
  assert (Y2 : lext l l2) by (eapply lext_trans; eauto). assert (Y3 : lext l l3) by (eapply lext_trans; eauto). assert (Y4 : lext l l4) by (eapply lext_trans; eauto).
  assert (Y5 : lext l l5) by (eapply lext_trans; eauto). assert (Y6 : lext l l6) by (eapply lext_trans; eauto). assert (Y7 : lext l l7) by (eapply lext_trans; eauto).
  assert (Y8 : lext l l8) by (eapply lext_trans; eauto). assert (Y9 : lext l l9) by (eapply lext_trans; eauto). assert (Y10 : lext l l10) by (eapply lext_trans; eauto).
  split; [eapply lext_trans; eauto|].
  assert (V24 : lext l2 l4) by (eapply lext_trans; eauto). assert (V45 : lext l4 l5) by exact Xi.
  assert (V57 : lext l5 l7) by (eapply lext_trans; eauto). assert (V79 : lext l7 l9) by (eapply lext_trans; eauto).
  assert (Ll2 : live l2 len) by (eapply lext_live; [exact X2|exact L1]). assert (Ll4 : live l4 len) by (eapply lext_live; eauto). assert (Ll5 : live l5 len) by (eapply lext_live; eauto). assert (Ll7 : live l7 len) by (eapply lext_live; eauto).
  assert (Ll3 : live l3 len) by (eapply lext_live; [exact Xc|exact Ll2]).
  assert (Ln2 : live l2 num) by exact L2.
  assert (Ld4 : live l4 dest) by (eapply lext_live; [exact Xa|exact Ld]). assert (Ld5 : live l5 dest) by (eapply lext_live; eauto). assert (Ld7 : live l7 dest) by (eapply lext_live; eauto).
  assert (Lov7 : live l7 ov) by (eapply lext_live; [exact X4|exact L3]).
  assert (Ll9 : live l9 len) by (eapply lext_live; eauto). assert (Ld9 : live l9 dest) by (eapply lext_live; eauto).
  assert (Lix9 : live l9 ix) by (eapply lext_live; eauto).
  intros F r js ls k st sp Q rs Hm HC HL HX HW. rewrite <- !app_assoc.
  assert (Q1 : (len < length ls)%nat) by (destruct Ll2; lenl). assert (Q2 : (num < length ls)%nat) by (destruct L2; lenl). assert (Q3 : (ov < length ls)%nat) by (destruct L3; lenl).
  assert (Q4 : (ix < length ls)%nat) by (destruct L4; lenl). assert (Q5 : (off < length ls)%nat) by (destruct L5; lenl).
  assert (R3 : (llen l3 <= length ls)%nat) by lenl. assert (R4 : (llen l4 <= length ls)%nat) by lenl. assert (R5 : (llen l5 <= length ls)%nat) by lenl. assert (R8 : (llen l8 <= length ls)%nat) by lenl. assert (R9 : (llen l9 <= length ls)%nat) by lenl.
  pose proof (c_lo _ _ _ _ _ _ _ _ _ _ _ HC) as Hlo. pose proof (c_room _ _ _ _ _ _ _ _ _ _ _ HC) as Hrm. rewrite <- Hsz in *.
  assert (G1 : sz + fa <= sz + fa + fi + fb) by lia. assert (G2 : sz + fa + fi <= sz + fa + fi + fb) by lia. assert (G3 : sz + fa + fi + fb <= sz + fa + fi + fb) by lia.
  assert (Hmx : seq_max t <= max_value_size) by (clear - Ht Hok; destruct t; try discriminate; cbn [ty_ok seq_max] in *; lia). unfold max_value_size in Hmx.
  assert (HU : 1 <= unit_size t) by (clear - Ht Hok; destruct t; try discriminate; cbn [unit_size ty_ok] in *; try lia; destruct Hok as (_ & Hok); apply size_pos in Hok; lia).
  assert (D1 : num <> len) by (intros ->; exact (N2 L1)). assert (D2 : num <> dest) by (intros ->; exact (Nd L2)). assert (D3 : len <> dest) by (intros ->; exact (Nd Ll2)).
  assert (D4 : ov <> len) by (intros ->; exact (N3 Ll5)). assert (D5 : ov <> dest) by (intros ->; exact (N3 Ld5)).
  assert (D6 : ix <> ov) by (intros ->; exact (N4 L3)). assert (D7 : ix <> len) by (intros ->; exact (N4 (lext_live _ _ _ X3 Ll5))). assert (D8 : ix <> dest) by (intros ->; exact (N4 (lext_live _ _ _ X3 Ld5))).
  assert (D9 : off <> ix) by (intros ->; exact (N5 Lix9)). assert (D10 : off <> len) by (intros ->; exact (N5 Ll9)). assert (D11 : off <> dest) by (intros ->; exact (N5 Ld9)).
  (* reserve *)
  assert (HC2 : ctx G B r F l2 ls st sp (sz + fa + fi + fb)) by (eapply ctx_moved; [exact HC|exact Y2|eapply moved_refl; exact HC|clear; lia]).
  eapply Hres; [exact HC2|clear - Hsz P5 P P0 P1; lia|exact R3|]. intros ls1 st1 Hh Hmem HM1' Hol HC1. cbn [app]. rewrite <- ?app_assoc.
  assert (HM1 : moved l ls st sp sz ls1 st1 (sp + sz)) by (destruct HM1' as [M1 M2 M3 M4 M5]; constructor; [eapply lkeep_weaken; [exact Y2|exact M1]|exact M2|exact M3|exact M4|exact M5]).
  eapply wp_lget; [exact Hol|]. rewrite <- Hh in Hm.
  eapply (impl_next1 _ _ _ _ _ _ _ _ _ _ HA Ea F (minus F sp sz)); [exact HM1|exact G1|exact Y3|apply minus_sub|eapply ctx_less; [exact HC1|clear - P0 P1; lia]|exact Hm|exact HX|exact R4|].
  intros v h ls2 st2 sp2 ws HG HM2 Hm2 HLv. cbv beta in Hm2.
  pose proof (g_moved _ _ _ _ _ _ _ _ _ _ _ _ _ HG) as HMa. pose proof (m_ls _ _ _ _ _ _ _ _ HMa) as KA.
  assert (Hol2 : nth_error ls2 dest = Some (VI32 sp)) by (rewrite (lkeep_get _ _ _ _ KA Ld); exact Hol).
  pose proof (g_rep _ _ _ _ _ _ _ _ _ _ _ _ _ HG) as Hrv. pose proof (g_type _ _ _ _ _ _ _ _ _ _ _ _ _ HG) as Htv.
  destruct (rep_seq _ _ _ _ _ Ht Hrv) as (pv & -> & A1 & A2 & A3 & A4). pose proof (seq_type_len _ _ Ht Htv) as Hlv.
  set (nv := seq_len v * unit_size t) in *. assert (Hnv : nv <= sz) by (rewrite Hsz; unfold nv; clear - Hlv P3; nia).
  pose proof (ctx_msize _ _ _ _ _ _ _ _ _ _ _ _ _ _ _ HC HM2) as Hmz. pose proof (m_rng _ _ _ _ _ _ _ _ HMa) as Hr1.
  assert (Z2 : length ls2 = length ls) by (apply lkeep_len with (l := l); apply HM2).
  cbn [rev app]. apply wp_ltee. eapply wp_lget; [apply lset_same; rewrite Z2; exact Q1|]. rewrite <- ?app_assoc. apply count_ok; [exact Ht|exact Hok|clear - Hlv; lia|apply A2|].
  cbn [app]. apply wp_lset. apply wp_memcopy; [clear - A3 Hmz Hrm; lia|rewrite Hmz; clear - Hnv Hrm P P0 P1 HX0; lia|].
  set (ls3 := lset (lset ls2 len _) num _). set (m3 := mcopy (smem st2) sp pv nv).
  assert (Z3 : length ls3 = length ls) by (unfold ls3; rewrite !lset_len; exact Z2).
  assert (T3 : nth_error ls3 len = Some (VI32 nv)) by (unfold ls3; rewrite nth_lset_ne by auto; apply lset_same; rewrite Z2; exact Q1).
  assert (U3 : nth_error ls3 dest = Some (VI32 sp)) by (unfold ls3; rewrite !nth_lset_ne by auto; exact Hol2).
  assert (K3 : lkeep l ls2 ls3).
  { unfold ls3. eapply lkeep_trans0; apply lkeep_lset; [exact N1|]. intros Hlive. exact (N2 (lext_live _ _ _ X1 Hlive)). }
  eapply wp_lget; [exact T3|]. apply wp_extu. rewrite <- ?app_assoc.
  assert (HM3 : moved l ls st sp (sz + fa) ls3 (with_mem st2 m3) sp2).
  { eapply moved_write; [eapply moved_ls; [exact HM2|exact K3]|apply only_mcopy|clear; lia]. }
  assert (HD3 : laid m3 (vis (minus F sp sz) sp2) t v sp).
  { eapply laid_copy; [exact Ht|exact Hrv| |exact Hlo|rewrite Hmz; clear - Hnv Hrm P P0 P1 HX0; lia]. intros x (_ & _ & Hx) Hx2. unfold seg in Hx2. clear - Hx Hx2 Hnv; lia. }
  assert (HC3 : ctx G B r (minus F sp sz) l4 ls3 (with_mem st2 m3) sp2 fi) by (eapply ctx_minus; [exact HC|exact Y4|exact HM3|clear - P1 Hr1; lia|clear - P1 Hr1; lia]).
  eapply (impl_next1 _ _ _ _ _ _ _ _ _ _ HB Ei F (minus F sp sz)); [exact HM3|exact G2|exact Y4|apply minus_sub|exact HC3|exact Hm2|exact HX|exact R5|].
  intros x h4 ls4 st4 sp4 wx HG4 HM4 Hm4 HLx. cbv beta in Hm4.
  pose proof (g_moved _ _ _ _ _ _ _ _ _ _ _ _ _ HG4) as HMb. pose proof (m_ls _ _ _ _ _ _ _ _ HMb) as KB. pose proof (m_rng _ _ _ _ _ _ _ _ HMb) as Hr4.
  assert (T4 : nth_error ls4 len = Some (VI32 nv)) by (rewrite (lkeep_get _ _ _ _ KB Ll4); exact T3).
  assert (U4 : nth_error ls4 dest = Some (VI32 sp)) by (rewrite (lkeep_get _ _ _ _ KB Ld4); exact U3).
  assert (Z4 : length ls4 = length ls) by (apply lkeep_len with (l := l); apply HM4).
  assert (HD4 : laid (smem st4) (vis (minus F sp sz) sp4) t v sp).
  { destruct (m_mem _ _ _ _ _ _ _ _ HMb) as (C1 & C2). eapply laid_frame; [exact HD3|exact C1| | |].
    - intros y (Hy & _). apply C2. exact Hy.
    - intros y Hy. apply C2. unfold seg in Hy. fold nv in Hy. clear - Hy Hnv Hr1; lia.
    - intros y (Hy & Hy2). split; [clear - Hy Hr4; lia|exact Hy2]. }
  pose proof (g_type _ _ _ _ _ _ _ _ _ _ _ _ _ HG4) as Hti. pose proof (g_rep _ _ _ _ _ _ _ _ _ _ _ _ _ HG4) as Hri.
  destruct x; cbn [has_type] in Hti; try contradiction. cbn [rep] in Hri. subst wx. rename z into n.
  cbn [rev app]. apply wp_const. apply wp_r64. apply wp_lset. apply wp_ltee. apply wp_const. apply wp_r64.
  eapply wp_lget; [rewrite nth_lset_ne by auto; apply lset_same; rewrite Z4; exact Q3|]. eapply wp_b32; [apply b2z_or|]. apply wp_lset.
  match goal with |- context [VI32 (b2z (?x || ?y))] => set (big := (x || y)%bool) end.
  match goal with |- context [lset (lset (lset ls4 ov ?x) ix ?y) ov ?z] => set (ls5 := lset (lset (lset ls4 ov x) ix y) ov z) end.
  assert (Z5 : length ls5 = length ls) by (unfold ls5; rewrite !lset_len; exact Z4).
  eapply wp_lget; [unfold ls5; rewrite nth_lset_ne by auto; apply lset_same; rewrite lset_len, Z4; exact Q4|]. rewrite <- ?app_assoc.
  apply index_ok; [exact Ht|apply Z.mod_pos_bound; clear; lia|]. set (io := (n mod 2 ^ 64 * unit_size t) mod m64).
  cbn [app]. apply wp_ltee. apply wp_r64. eapply wp_lget; [rewrite nth_lset_ne by auto; unfold ls5; apply lset_same; rewrite !lset_len, Z4; exact Q3|].
  eapply wp_b32; [apply b2z_or|]. apply wp_lset.
  assert (Hlv2 : 0 <= seq_len v <= 1048576) by (clear - Hlv Hmx; lia).
  destruct (index_flag (unit_size t) (seq_len v) n HU Hlv2 (proj2 A2) Hti big eq_refl) as (Hfl & Hex). fold nv in Hfl. fold io in Hfl, Hex.
  cbn [irel]. rewrite Hfl. clear Hfl.
  match goal with |- context [lset (lset ls5 ix ?x) ov ?y] => set (ls6 := lset (lset ls5 ix x) ov y) end.
  assert (Z6 : length ls6 = length ls) by (unfold ls6; rewrite !lset_len; exact Z5).
  assert (T6 : nth_error ls6 len = Some (VI32 nv)) by (unfold ls6, ls5; rewrite !nth_lset_ne by auto; exact T4).
  assert (U6 : nth_error ls6 dest = Some (VI32 sp)) by (unfold ls6, ls5; rewrite !nth_lset_ne by auto; exact U4).
  assert (V6 : nth_error ls6 ix = Some (VI64 io)) by (unfold ls6; rewrite nth_lset_ne by auto; apply lset_same; rewrite Z5; exact Q4).
  assert (W6 : nth_error ls6 ov = Some (VI32 (b2z (negb (n <? seq_len v))))) by (unfold ls6; apply lset_same; rewrite lset_len, Z5; exact Q3).
  assert (K6 : lkeep l ls4 ls6).
  { unfold ls6, ls5. assert (Nov : ~ live l ov) by (intros Hlive; apply N3; exact (lext_live _ _ _ Y5 Hlive)). assert (Nix : ~ live l ix) by (intros Hlive; apply N4; exact (lext_live _ _ _ Y6 Hlive)).
    do 4 (eapply lkeep_trans0; [|apply lkeep_lset; assumption]). apply lkeep_lset; assumption. }
  clearbody ls5 ls6. clear ls5 Z5.
  assert (HM6 : moved l ls st sp (sz + fa + fi) ls6 st4 sp4) by (eapply moved_ls; [exact HM4|exact K6]).
  assert (HC6 : ctx G B r (minus F sp sz) l7 ls6 st4 sp4 fb) by (eapply ctx_minus; [exact HC|exact Y7|exact HM6|clear - Hr1 Hr4; lia|clear - Hr1 Hr4; lia]).
  rewrite <- ?app_assoc. eapply (impl_next1 _ _ _ _ _ _ _ _ _ _ HJ Eb F (minus F sp sz)); [exact HM6|exact G3|exact Y7|apply minus_sub|exact HC6|exact Hm4|exact HX|exact R8|].
  intros w h5 ls7 st5 sp5 wx HG5 HM5 Hm5 HLx5. cbv beta in Hm5.
  pose proof (g_moved _ _ _ _ _ _ _ _ _ _ _ _ _ HG5) as HMc. pose proof (m_ls _ _ _ _ _ _ _ _ HMc) as KC. pose proof (m_rng _ _ _ _ _ _ _ _ HMc) as Hr5.
  assert (T7 : nth_error ls7 len = Some (VI32 nv)) by (rewrite (lkeep_get _ _ _ _ KC Ll7); exact T6).
  assert (U7 : nth_error ls7 dest = Some (VI32 sp)) by (rewrite (lkeep_get _ _ _ _ KC Ld7); exact U6).
  assert (V7 : nth_error ls7 ix = Some (VI64 io)) by (rewrite (lkeep_get _ _ _ _ KC L4); exact V6).
  assert (W7 : nth_error ls7 ov = Some (VI32 (b2z (negb (n <? seq_len v))))) by (rewrite (lkeep_get _ _ _ _ KC Lov7); exact W6).
  assert (Z7 : length ls7 = length ls) by (apply lkeep_len with (l := l); apply HM5).
  assert (HD5 : laid (smem st5) (vis (minus F sp sz) sp5) t v sp).
  { destruct (m_mem _ _ _ _ _ _ _ _ HMc) as (C1 & C2). eapply laid_frame; [exact HD4|exact C1| | |].
    - intros y (Hy & _). apply C2. exact Hy.
    - intros y Hy. apply C2. unfold seg in Hy. fold nv in Hy. clear - Hy Hnv Hr1 Hr4; lia.
    - intros y (Hy & Hy2). split; [clear - Hy Hr5; lia|exact Hy2]. }
  pose proof (g_type _ _ _ _ _ _ _ _ _ _ _ _ _ HG5) as Htw. pose proof (g_rep _ _ _ _ _ _ _ _ _ _ _ _ _ HG5) as Hrw.
  pose proof (ctx_msize _ _ _ _ _ _ _ _ _ _ _ _ _ _ _ HC HM5) as Hmz5.
  assert (Herr : exists x, gget (sglob st5) "runtime-error-code" = Some x).
  { rewrite (m_glob _ _ _ _ _ _ _ _ HM5) by discriminate. eapply c_err; exact HC. }
  eapply Hchk; [exact Hrw|exact Htv|exact Htw|exact Herr|rewrite Z7; exact R9| |].
  - intros Hem st' Hst'. rewrite Hem in Hm5. unfold unless in Hm5. cbn [andb] in Hm5. destruct (n <? seq_len v); [|discriminate]. unfold abort in Hm5. injection Hm5 as <-.
    cbn [exits] in HX. apply HX. exact Hst'.
  - intros Hem Hs1 ls8 K8. rewrite Hem in Hm5. unfold unless in Hm5. cbn [andb] in Hm5.
    pose proof (lext_live _ _ _ Xb Ll7) as Ll8. pose proof (lext_live _ _ _ Xb Ld7) as Ld8. pose proof (lext_live _ _ _ Xb L4) as Lix8. pose proof (lext_live _ _ _ Xb Lov7) as Lov8.
    assert (T8 : nth_error ls8 len = Some (VI32 nv)) by (rewrite (lkeep_get _ _ _ _ K8 Ll8); exact T7).
    assert (U8 : nth_error ls8 dest = Some (VI32 sp)) by (rewrite (lkeep_get _ _ _ _ K8 Ld8); exact U7).
    assert (V8 : nth_error ls8 ix = Some (VI64 io)) by (rewrite (lkeep_get _ _ _ _ K8 Lix8); exact V7).
    assert (Z8 : length ls8 = length ls) by (rewrite (lkeep_len _ _ _ K8); exact Z7).
    assert (HM8 : moved l ls st sp (sz + fa + fi + fb) ls8 st5 sp5) by (eapply moved_ls'; [exact HM5|exact Y8|exact K8]).
    eapply wp_lget; [rewrite (lkeep_get _ _ _ _ K8 Lov8); exact W7|].
    eapply wp_if; [reflexivity|]. cbn [cstack clocals cstore]. rewrite firstn_app, skipn_app.
    replace (length (clar2wasm_ty (elem_ty t)) - length (rev wx))%nat with 0%nat by (rewrite rev_length, HLx5; clear; lia).
    rewrite firstn_O, app_nil_r. replace (length (clar2wasm_ty (elem_ty t))) with (length (rev wx)) by (rewrite rev_length; exact HLx5). rewrite firstn_all, skipn_all. cbn [skipn app].
    unfold setstk; cbn [clocals cstore].
    destruct (Z.ltb_spec n (seq_len v)) as [Hin|Hout]; cbn [negb b2z Z.eqb].
    + specialize (Hex Hin). assert (Hio : 0 <= io /\ io + unit_size t <= nv) by (rewrite Hex; unfold nv; clear - Hin HU Hti; nia).
      destruct (seq_put v n w) as [c|] eqn:Hpt; [|discriminate]. cbn [option_map of_opt] in Hm5. unfold of_opt, ret in Hm5. injection Hm5 as <-.
      cbn [app]. eapply wp_lget; [exact V8|]. apply wp_wrap. eapply wp_lget; [exact U8|]. eapply wp_b32; [cbn [ibin]; reflexivity|].
      rewrite (Z.mod_small io) by (clear - Hio A2 HU; lia). replace (io + sp) with (sp + io) by (clear; lia).
      rewrite (Z.mod_small (sp + io)) by (clear - Hio Hnv Hrm Hlo P P0 P1 HX0 HU; lia). apply wp_lset.
      rewrite <- ?app_assoc. rewrite <- (app_nil_r (rev wx)).
      eapply (Hput (vis (minus F sp sz) sp5) w wx (sp + io)); [exact Hrw|exact Htw|exact Hs1|apply lset_same; rewrite Z8; exact Q5|rewrite lset_len, Z8; exact HL|clear - Hlo Hio; lia| | |].
      * rewrite Hmz5. clear - Hio Hnv Hrm P P0 P1 HX0 HU; lia.
      * intros y (_ & _ & Hy) Hy2. unfold seg in Hy2. clear - Hy Hy2 Hio Hnv HU; lia.
      * intros ls9 m9 K9 O9 HL9. cbn [app].
        pose proof (lext_live _ _ _ X5 Ll9) as Ll10. pose proof (lext_live _ _ _ X5 Ld9) as Ld10.
        apply wp_const. eapply wp_lget; [rewrite (lkeep_get _ _ _ _ K9 Ld10), nth_lset_ne by auto; exact U8|]. eapply wp_lget; [rewrite (lkeep_get _ _ _ _ K9 Ll10), nth_lset_ne by auto; exact T8|].
        apply qb_done. cbn [app].
        destruct (put_type _ _ _ _ _ Ht Htv (conj (proj1 Hti) Hin) Hpt Htw) as (Htc & Hlc).
        apply (HW _ (shost st5) ls9 (with_mem st5 m9) sp5 [VI32 1; VI32 sp; VI32 nv] eq_refl). constructor.
        -- eapply moved_write; [|exact O9|clear - Hio; lia]. eapply moved_ls'; [eapply moved_ls; [exact HM8|apply lkeep_lset; intros Hlive; exact (N5 (lext_live _ _ _ Y9 Hlive))]|exact Y10|exact K9].
        -- cbn [smem with_mem rep]. eexists. split; [reflexivity|].
           eapply rep_weaken; [|eapply (laid_rep _ (vis (minus F sp sz) sp5)); [exact Ht| |rewrite Hlc; reflexivity|clear - Hlo Hrm Hio Hnv P P0 P1 HX0 HU; lia|rewrite (only_size _ _ _ _ O9), Hmz5; fold nv; clear - Hnv Hrm P P0 P1 HX0; lia]].
           ++ intros y [(Hy & Hy2)|Hy]; [split; [exact Hy|apply Hy2]|]. unfold seg in Hy. fold nv in Hy. split; [clear - Hy Hnv Hr1 Hr4 Hr5; lia|]. eapply c_up; [exact HC|clear - Hy; lia].
           ++ eapply (laid_put (smem st5)); [exact Ht|exact Htv|exact HD5|split; [apply Hti|exact Hin]|exact Hpt| |rewrite <- Hex; reflexivity|exact O9| |exact HL9|exact Hs1].
              ** intros n0 te ->. exact Htw.
              ** intros y (_ & _ & Hy) Hy2. unfold seg in Hy2. fold nv in Hy2. clear - Hy Hy2 Hnv; lia.
        -- exact Htc.
        -- reflexivity.
    + unfold ret in Hm5. injection Hm5 as <-. rewrite <- (app_nil_r (rev wx)). eapply wp_drops; [exact HLx5|]. cbn [app]. apply wp_const. apply wp_const. apply wp_const. apply qb_done. cbn [app].
      apply (HW _ (shost st5) ls8 st5 sp5 [VI32 0; VI32 0; VI32 0] eq_refl). constructor; [exact HM8| |exact I|reflexivity].
      cbn [rep]. eexists. split; [reflexivity|]. destruct t; try discriminate; cbn [clar2wasm_ty]; (constructor; [|constructor; [|constructor]]); cbn; clear; lia.
Qed.
End Replace.
