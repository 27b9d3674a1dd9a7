(** * Principal words: generated code (model and proof support) *)
From Coq Require Import ZArith String List Bool Lia Arith.
Import ListNotations.
From Verif Require Import Wasm Std StdEnv WasmLogic WasmTac Spec Mem MemFacts Bytes SpecBytes SpecUtf8 Clar Rep RepFacts ReadProofs Emit EmitFacts EmitProofs CallProofs NameProofs PropNames
  Ast SpecLang Lang Typing LangFacts LangBase LangCtl LangEarly LangMem LangSeq LangList LangCall SpecChain SpecPrincipal.
Open Scope string_scope.
Open Scope list_scope.
Open Scope Z_scope.

(** ** The generated code; the cost charges are left out *)
(** words/principal.rs 25-85 *)
Definition e_is_standard (a : frag) : frag := fun d B l =>
  let '(ca, l) := a d B l in let '(v, l) := add_local T32 l in
  (ca ++ [Drop; Load L32_8u 0; LTee v; Call "stdlib.is_in_mainnet";
    If 1 1 [Const (VI32 20); R32 Eq; LGet v; Const (VI32 22); R32 Eq; B32 Or]
           [Const (VI32 21); R32 Eq; LGet v; Const (VI32 26); R32 Eq; B32 Or]], l).
(** words/principal.rs 168-206 [generate_tuple] *)
Definition generate_tuple (off len : nat) : list instr :=
  [LGet off; Const (VI32 1); B32 Add; Const (VI32 20); LGet len; Const (VI32 0); R32 GtU; LGet off; Const (VI32 22); B32 Add; LGet len; LGet off; Const (VI32 1)].
(** words/principal.rs 214-293 *)
Definition e_destruct (a : frag) : frag := fun d B l =>
  let '(ca, l) := a d B l in let '(len, l) := add_local T32 l in let '(off, l) := add_local T32 l in
  (ca ++ [Const (VI32 22); B32 Sub; LSet len; LTee off; Load L32_8u 0; Call "stdlib.is-version-valid";
    If 0 (length (clar2wasm_ty (TResp parts_ty parts_ty)))
      (Const (VI32 1) :: generate_tuple off len ++ placeholders parts_ty)
      (Const (VI32 0) :: placeholders parts_ty ++ generate_tuple off len)], l).
(** words/principal.rs 97-161; [n]: the contract name, if there is one *)
Definition e_construct (v h : frag) (n : option frag) : frag := fun d B l =>
  let '(ro, _, cc, l) := create_call_stack_local TPrin false true l in
  let '(cv, l) := v d B l in
  let '(ch, l) := h d B l in
  let '(cn, l) := match n with
    | Some n => let '(cn, l) := n d B l in (Const (VI32 1) :: cn, l)
    | None => ([Const (VI32 0); Const (VI32 0); Const (VI32 0)], l)
    end in
  (cc ++ cv ++ ch ++ cn ++ [LGet ro; Call "stdlib.principal-construct"], l).
Fixpoint comp_pexp (S : list (string * fsig)) (rt : ty) (s : pexp) : frag :=
  match s with
  | GExpr e => compile S rt e
  | GStandard a => e_is_standard (comp_pexp S rt a)
  | GDestruct a => e_destruct (comp_pexp S rt a)
  | GConstruct v h => e_construct (comp_pexp S rt v) (comp_pexp S rt h) None
  | GConstructC v h n => e_construct (comp_pexp S rt v) (comp_pexp S rt h) (Some (comp_pexp S rt n))
  | GLet x a b => e_let x (pexp_ty a) (comp_pexp S rt a) (comp_pexp S rt b)
  | GIf c a b => e_if (pexp_ty a) (comp_pexp S rt c) (comp_pexp S rt a) (comp_pexp S rt b)
  end.

Lemma range_holds m o bs : holds m o bs -> Forall (fun b => 0 <= b < 256) bs.
Proof. revert o. induction bs as [|b bs IH]; intros o H; constructor; apply holds_cons in H; destruct H as (_ & H1 & _ & _ & _ & H2); eauto. Qed.
Lemma on_network_spec mn v : on_network mn v = version_ok mn v.
Proof. reflexivity. Qed.
Lemma on_network_iff mn v : on_network mn v = true <-> network_version mn v.
Proof. rewrite on_network_spec. apply version_ok_spec. Qed.
Lemma name_ascii n : contract_name n -> Forall clarity_ascii n.
Proof.
  intros [->|(c & r & -> & H1 & H2)].
  - repeat constructor; unfold clarity_ascii; lia.
  - assert (HA : forall x, is_name_char x = true -> clarity_ascii x).
    { intros x. unfold is_name_char, is_letter, is_digit, clarity_ascii. rewrite !orb_true_iff, !andb_true_iff, ?orb_true_iff, ?andb_true_iff, !Z.leb_le, !Z.eqb_eq. lia. }
    constructor; [apply HA; unfold is_name_char; rewrite H1; reflexivity|]. apply Forall_forall. intros x Hx. apply HA. rewrite forallb_forall in H2. auto.
Qed.

Section Words.
Context {HS : Type} {CH : chain HS} (E : env HS) (HE : has_std E) (mn : bool) (HN : host_says E mn).
Context (rt : ty) (L : list (ty * value * Z)) (X : Z) (HX0 : 0 <= X).
Notation wp := (wp E).
Notation impl := (impl E rt L X).
Notation ctx := (ctx L X).
Notation impl_next1 := (impl_next1 E rt L X).
Notation impl_fr := (impl_fr E rt L X).
Notation impl_ext := (impl_ext E rt L X).
Ltac fr_of H := let P := fresh "P" in pose proof (impl_fr _ _ _ _ _ H) as P.
Ltac ext_of H E X := let W := fresh in
  match type of E with ?c ?d ?B ?l = _ =>
    assert (W : lwf l) by (assumption || (eapply lext_wf; eassumption));
    pose proof (impl_ext _ _ _ _ _ _ _ _ _ _ H E W) as X; clear W end.
Ltac lenl := repeat match goal with H : lext _ _ |- _ => apply lext_len in H | H : moved _ _ _ _ _ _ _ _ |- _ => apply m_ls, lkeep_len in H end; lia.

(** the host import *)
Lemma mainnet_wp js ls k (st : store HS) Q : wp js (mkcfg ls (VI32 (if mn then 1 else 0) :: k) st) Q -> wp (Call "stdlib.is_in_mainnet" :: js) (mkcfg ls k st) Q.
Proof.
  intros HW. destruct HN as (H1 & h & H2 & H3). eapply (wp_call_all E _ 0 [] k); [unfold fun_arity; rewrite H1, H2; reflexivity|reflexivity|].
  eapply wpf_host; [exact H1|exact H2|]. rewrite H3. unfold qcall. cbn [ret_call cont rev app vbool]. destruct mn; exact HW.
Qed.

(** ** [is-standard] *)
Lemma standard_ok G fr (c : frag) (m : venv -> M HS value) : impl G TPrin fr c m -> impl G TBool fr (e_is_standard c) (fun r => bind (m r) (do_standard mn)).
Proof.
  intros IH. fr_of IH. split; [lia|]. intros d B l code l' HC Hw. unfold e_is_standard in HC.
  destruct (c d B l) as [ch l1] eqn:Ech. destruct (add_local T32 l1) as [i l2] eqn:Ei. injection HC as <- <-.
  ext_of IH Ech X1. destruct (add_ok _ _ _ _ Ei (lext_wf _ _ X1)) as (Xi & Li & Ni).
  split; [eapply lext_trans; eauto|]. intros F r js ls k st sp Q rs Hm HC HL HX HW. rewrite <- !app_assoc.
  eapply (impl_next1 _ _ _ _ _ _ _ _ _ _ IH Ech F F); [eapply moved_refl; exact HC| |apply lext_refl; exact Hw|auto|exact HC|exact Hm|exact HX|lenl|]; [lia|].
  intros v h ls2 st2 sp2 ws HG HM2 Hm2 HLv. cbn [Z.add] in HM2.
  pose proof (g_rep _ _ _ _ _ _ _ _ _ _ _ _ _ HG) as Hrep. pose proof (g_type _ _ _ _ _ _ _ _ _ _ _ _ _ HG) as Hty.
  destruct v as [| | |p| | | | | | | | | |]; try contradiction Hty. cbn [rep] in Hrep. destruct Hrep as (o & -> & Ho1 & Ho2 & Hh & Hin).
  destruct (prin_holds _ _ _ Hty Hh) as (v & hb & n & Hv & _ & Hhv & _ & _ & _ & _ & Hp).
  apply holds_cons in Hhv as (Hrd & _ & _ & Hsz & _ & _).
  assert (Hver : version_of p = v) by (destruct Hp as [(_ & ->)|(_ & _ & _ & ->)]; reflexivity).
  unfold do_standard, ret, is_standard in Hm2. rewrite Hver in Hm2. injection Hm2 as <-.
  assert (I1 : (i < length ls2)%nat) by (destruct Li as (Li & _); lenl).
  cbn [rev app]. apply wp_drop. apply wp_load; [cbn; lia|]. cbn [ldbytes ldval]. rewrite ldn1, Z.add_0_r, Hrd. apply wp_ltee. apply mainnet_wp.
  set (ls3 := lset ls2 i (VI32 v)). assert (H3 : nth_error ls3 i = Some (VI32 v)) by (apply lset_same; exact I1).
  assert (HD : wp js (mkcfg ls3 (VI32 (b2z (on_network mn v)) :: k) st2) Q).
  { eapply (HW (CBool (on_network mn v)) _ ls3 st2 sp2 [VI32 (b2z (on_network mn v))]); [reflexivity|]. constructor; [|reflexivity|exact I|reflexivity].
    eapply moved_ls'; [exact HM2|exact X1|]. apply lkeep_lset. exact Ni. }
  eapply wp_if; [reflexivity|]. unfold setstk. cbn [firstn skipn clocals cstore].
  unfold on_network in HD. destruct mn; cbn [Z.eqb]; apply wp_const, wp_r32; (eapply wp_lget; [exact H3|]); apply wp_const, wp_r32;
    (eapply wp_b32; [cbn [ibin irel]; rewrite NameProofs.b2z_or; reflexivity|]); apply qb_done; exact HD.
Qed.

(** ** [principal-destruct?] *)
Lemma generate_run off len o n ls k (st : store HS) js Q : nth_error ls off = Some (VI32 o) -> nth_error ls len = Some (VI32 n) ->
  wp js (mkcfg ls (rev [VI32 ((o + 1) mod m32); VI32 20; VI32 (b2z (0 <? n)); VI32 ((o + 22) mod m32); VI32 n; VI32 o; VI32 1] ++ k) st) Q ->
  wp (generate_tuple off len ++ js) (mkcfg ls k st) Q.
Proof.
  intros H1 H2 HW. unfold generate_tuple. cbn [app]. eapply wp_lget; [exact H1|]. apply wp_const. eapply wp_b32; [reflexivity|]. apply wp_const.
  eapply wp_lget; [exact H2|]. apply wp_const, wp_r32. eapply wp_lget; [exact H1|]. apply wp_const. eapply wp_b32; [reflexivity|].
  eapply wp_lget; [exact H2|]. eapply wp_lget; [exact H1|]. apply wp_const. exact HW.
Qed.
Lemma parts_rep m P p o : prin_ok p -> short_name p = true -> holds m o (prin_bytes p) -> o + Z.of_nat (length (prin_bytes p)) < m32 -> inside P o (Z.of_nat (length (prin_bytes p))) ->
  exists n, Z.of_nat (length (prin_bytes p)) = 22 + n /\ 0 <= n /\ has_type parts_ty (parts p) /\
    rep m P parts_ty (parts p) [VI32 ((o + 1) mod m32); VI32 20; VI32 (b2z (0 <? n)); VI32 ((o + 22) mod m32); VI32 n; VI32 o; VI32 1].
Proof.
  intros Hok Hs Hh Hlt Hin. destruct (prin_holds _ _ _ Hok Hh) as (v & h & n & Hv & Hl & H1 & H2 & _ & _ & H3 & Hp).
  pose proof (holds_len _ _ _ Hh) as (Ho & Hsz & Hm). pose proof (range_holds _ _ _ H2) as Rh.
  assert (Hlen : Z.of_nat (length (prin_bytes p)) = 22 + Z.of_nat (length n)).
  { destruct Hp as [(-> & ->)|(_ & _ & _ & ->)]; cbn [prin_bytes length]; rewrite app_length; cbn [length]; lia. }
  rewrite Hlen in *. exists (Z.of_nat (length n)). split; [reflexivity|]. split; [lia|].
  assert (Hver : version_of p = v /\ hash_of p = h) by (destruct Hp as [(_ & ->)|(_ & _ & _ & ->)]; auto). destruct Hver as (Hver & Hhash).
  rewrite !Z.mod_small by lia. unfold parts, parts_ty. rewrite Hver, Hhash. split.
  - cbn [has_type]. split; [reflexivity|]. split; [split; [lia|exact Rh]|]. split; [reflexivity|]. split.
    + destruct Hp as [(_ & ->)|(_ & Hn & _ & ->)]; cbn [name_of]; [exact I|]. unfold short_name in Hs. cbn [name_of] in Hs. apply Nat.leb_le in Hs. split; [lia|apply name_ascii; exact Hn].
    + split; [reflexivity|]. split; [|exact I]. split; [cbn; lia|]. repeat constructor; lia.
  - rewrite rep_tuple. cbn [rep_fields].
    assert (B1 : rep_bytes m P h [VI32 (o + 1); VI32 20]).
    { exists (o + 1). rewrite Hl. split; [reflexivity|]. split; [lia|]. split; [reflexivity|]. split; [exact H2|]. intros x Hx. apply Hin. lia. }
    assert (B3 : rep_bytes m P [v] [VI32 o; VI32 1]).
    { exists o. split; [reflexivity|]. split; [lia|]. split; [reflexivity|]. split; [exact H1|]. intros x Hx. cbn [length] in Hx. apply Hin. lia. }
    exists [VI32 (o + 1); VI32 20]. eexists. split; [reflexivity|]. split; [reflexivity|]. split; [exact B1|].
    exists [VI32 (b2z (0 <? Z.of_nat (length n))); VI32 (o + 22); VI32 (Z.of_nat (length n))]. eexists. split; [reflexivity|]. split; [reflexivity|]. split.
    + destruct Hp as [(-> & ->)|(Hne & _ & _ & ->)]; cbn [name_of rep].
      * exists [VI32 (o + 22); VI32 0]. split; [reflexivity|]. cbn [length] in *. repeat constructor; cbn; lia.
      * exists [VI32 (o + 22); VI32 (Z.of_nat (length n))]. split.
        { assert (0 < Z.of_nat (length n)) by (destruct n; [congruence|cbn [length]; lia]). rewrite (proj2 (Z.ltb_lt _ _)) by assumption. reflexivity. }
        exists (o + 22). split; [reflexivity|]. split; [lia|]. split; [lia|]. split; [exact H3|]. intros x Hx. apply Hin. lia.
    + exists [VI32 o; VI32 1], []. split; [reflexivity|]. split; [reflexivity|]. split; [exact B3|reflexivity].
Qed.

Lemma destruct_ok G fr (c : frag) (m : venv -> M HS value) : impl G TPrin fr c m -> impl G (TResp parts_ty parts_ty) fr (e_destruct c) (fun r => bind (m r) (do_destruct mn true)).
Proof.
  intros IH. fr_of IH. split; [lia|]. intros d B l code l' HC Hw. unfold e_destruct in HC.
  destruct (c d B l) as [ch l1] eqn:Ech. destruct (add_local T32 l1) as [len l2] eqn:E1. destruct (add_local T32 l2) as [off l3] eqn:E2. injection HC as <- <-.
  ext_of IH Ech X1. destruct (add_ok _ _ _ _ E1 (lext_wf _ _ X1)) as (Y1 & L1 & N1). destruct (add_ok _ _ _ _ E2 (lext_wf _ _ Y1)) as (Y2 & L2 & N2).
  assert (X02 : lext l l2) by (eapply lext_trans; eauto).
  split; [eapply lext_trans; eauto|]. intros F r js ls k st sp Q rs Hm HC HL HX HW. rewrite <- !app_assoc.
  pose proof (c_room _ _ _ _ _ _ _ _ _ _ _ HC) as Hrm.
  eapply (impl_next1 _ _ _ _ _ _ _ _ _ _ IH Ech F F); [eapply moved_refl; exact HC| |apply lext_refl; exact Hw|auto|exact HC|exact Hm|exact HX|lenl|]; [lia|].
  intros v h ls2 st2 sp2 ws HG HM2 Hm2 HLv. cbn [Z.add] in HM2.
  pose proof (g_rep _ _ _ _ _ _ _ _ _ _ _ _ _ HG) as Hrep. pose proof (g_type _ _ _ _ _ _ _ _ _ _ _ _ _ HG) as Hty.
  pose proof (ctx_msize _ _ _ _ _ _ _ _ _ _ _ _ _ _ _ HC HM2) as Hmz.
  destruct v as [| | |p| | | | | | | | | |]; try contradiction Hty. cbn [rep] in Hrep. destruct Hrep as (o & -> & Ho1 & Ho2 & Hh & Hin).
  unfold do_destruct in Hm2. cbn [negb orb] in Hm2. destruct (short_name p) eqn:Hs; [|discriminate Hm2]. unfold ret in Hm2. injection Hm2 as <-.
  pose proof (holds_len _ _ _ Hh) as (_ & Hsz & _).
  destruct (parts_rep _ _ _ _ Hty Hs Hh ltac:(lia) Hin) as (n & Hlen & Hn & Htp & Hrp). rewrite Hlen in *.
  destruct (prin_holds _ _ _ Hty Hh) as (v & hb & nm & Hv & _ & Hhv & _ & _ & _ & _ & Hp).
  apply holds_cons in Hhv as (Hrd & _ & _ & Hsz2 & _ & _).
  assert (Hver : version_of p = v) by (destruct Hp as [(_ & ->)|(_ & _ & _ & ->)]; reflexivity). clear Hp.
  unfold destruct_principal, is_standard in HW. rewrite Hver in HW.
  assert (D : len <> off) by (intros ->; apply N2; exact L1).
  assert (I1 : (len < length ls2)%nat) by (destruct L1 as (L1 & _); lenl). assert (I2 : (off < length ls2)%nat) by (destruct L2 as (L2 & _); lenl).
  cbn [rev app]. apply wp_const. eapply wp_b32; [reflexivity|]. replace ((22 + n - 22) mod m32) with n by (rewrite Z.mod_small; lia). apply wp_lset. apply wp_ltee.
  set (ls3 := lset (lset ls2 len (VI32 n)) off (VI32 o)).
  assert (G1 : nth_error ls3 len = Some (VI32 n)) by (unfold ls3; rewrite nth_lset_ne by auto; apply lset_same; exact I1).
  assert (G2 : nth_error ls3 off = Some (VI32 o)) by (apply lset_same; rewrite lset_len; exact I2).
  apply wp_load; [cbn; lia|]. cbn [ldbytes ldval]. rewrite ldn1, Z.add_0_r, Hrd.
  eapply (wp_call_all E _ 1 [VI32 v] k); [|reflexivity|].
  { unfold fun_arity. destruct HE as (HE1 & _). rewrite (HE1 "stdlib.is-version-valid" _ eq_refl). reflexivity. }
  apply (is_version_valid_wp E HE mn); [exact HN|]. unfold qcall. cbn [ret_call cont rev app].
  assert (HM3 : moved l ls st sp fr ls3 st2 sp2).
  { eapply moved_ls'; [exact HM2|exact X1|]. eapply lkeep_trans0; apply lkeep_lset; [exact N1|]. intros Hx. apply N2. exact (lext_live _ _ _ Y1 Hx). }
  assert (Hz : Forall2 wtyped (clar2wasm_ty parts_ty) (map zero_of (clar2wasm_ty parts_ty))) by apply zeros_typed.
  apply wp_if0. fold (on_network mn v). change (version_ok mn v) with (on_network mn v). destruct (on_network mn v); cbn [b2z Z.eqb].
  - apply wp_const. eapply generate_run; [exact G2|exact G1|]. rewrite <- (app_nil_r (placeholders parts_ty)). apply wp_placeholders. apply qb_done.
    match type of Hrp with rep _ _ _ _ ?w => set (tw := w) in * end.
    eapply (HW (COk (parts p)) _ ls3 st2 sp2 (VI32 1 :: tw ++ map zero_of (clar2wasm_ty parts_ty)) eq_refl).
    constructor; [exact HM3| |exact Htp|reflexivity]. cbn [rep]. exists tw, (map zero_of (clar2wasm_ty parts_ty)). auto.
  - match goal with |- WasmLogic.wp _ _ ?s ?Q0 => change (wp (Const (VI32 0) :: (placeholders parts_ty ++ generate_tuple off len)) s Q0) end. eapply wp_step1; [reflexivity|reflexivity|]. apply wp_placeholders. rewrite <- (app_nil_r (generate_tuple off len)). eapply generate_run; [exact G2|exact G1|]. apply qb_done.
    match type of Hrp with rep _ _ _ _ ?w => set (tw := w) in * end.
    eapply (HW (CErr (parts p)) _ ls3 st2 sp2 (VI32 0 :: map zero_of (clar2wasm_ty parts_ty) ++ tw) eq_refl).
    constructor; [exact HM3| |exact Htp|reflexivity]. cbn [rep]. exists (map zero_of (clar2wasm_ty parts_ty)), tw. auto.
Qed.

(** ** [principal-construct?] *)
(** the answer of the standard library is the specified one *)
Lemma construct_spec v h nm r : construct mn v h nm r -> (length v <= 1)%nat -> (length h <= 20)%nat ->
  construct_principal mn v h nm =
  match r with
  | inl (c, None) => complaint c None
  | inl (c, Some _) => complaint c (Some (principal (hd 0 v) h nm))
  | inr _ => COk (CPrin (principal (hd 0 v) h nm))
  end.
Proof.
  assert (NF : forall nm : option (list Z), (forall s, nm = Some s -> contract_name s) -> name_fine nm = true).
  { intros [s|] Hs; [|reflexivity]. unfold name_fine. destruct (contract_name_dec s) as [|Hn]; [reflexivity|]. exfalso. apply Hn, Hs. reflexivity. }
  intros Hc Hv Hh. destruct Hc as [mn v h nm Hb|mn b h nm H1 H2 Hn|mn b h nm H1 H2 Hn Hw|mn b h nm H1 H2 Hn Hw]; unfold construct_principal.
  - destruct v as [|b [|b' v]]; try reflexivity. cbn [hd] in Hb.
    assert (K : (b <? 32) && (length h =? 20)%nat = false).
    { apply andb_false_iff. rewrite Z.ltb_ge, Nat.eqb_neq. destruct Hb as [Hb|[Hb|Hb]]; [discriminate|left; lia|right; lia]. }
    rewrite K. reflexivity.
  - rewrite (proj2 (Z.ltb_lt _ _) H1), H2. cbn [andb Nat.eqb]. unfold name_fine. destruct (contract_name_dec nm) as [|]; [contradiction|reflexivity].
  - rewrite (proj2 (Z.ltb_lt _ _) H1), H2. cbn [andb Nat.eqb]. rewrite (NF _ Hn). destruct (on_network mn b) eqn:En; [apply on_network_iff in En; contradiction|reflexivity].
  - rewrite (proj2 (Z.ltb_lt _ _) H1), H2. cbn [andb Nat.eqb]. rewrite (NF _ Hn), (proj2 (on_network_iff mn b) Hw). reflexivity.
Qed.
Lemma construct_rep v h nm r m ro P : construct mn v h nm r -> (length v <= 1)%nat -> (length h <= 20)%nat -> (length (name_bytes nm) <= 40)%nat ->
  Forall (fun b => 0 <= b < 256) v -> Forall (fun b => 0 <= b < 256) h ->
  bytes_at m ro (length (construct_bytes r)) = construct_bytes r -> 0 <= ro -> ro + 150 <= msize m < m32 -> inside P ro 150 ->
  rep m P (TResp TPrin complaint_ty) (construct_principal mn v h nm) (construct_vals ro r) /\ has_type (TResp TPrin complaint_ty) (construct_principal mn v h nm).
Proof.
  intros Hc Hv Hh Hnl Rv Rh Hb Hro Hm Hin. rewrite (construct_spec _ _ _ _ Hc Hv Hh). clear Hv Hh.
  assert (PR : forall b, [b] = v -> b < 32 -> length h = 20%nat -> (forall s, nm = Some s -> contract_name s) -> construct_bytes r = principal_bytes b h (name_bytes nm) ->
     rep_bytes m P (prin_bytes (principal b h nm)) [VI32 ro; vlen (construct_bytes r)] /\ prin_ok (principal b h nm)).
  { intros b <- Hb32 Hh Hn Hcb. inversion Rv as [|? ? Rb _]; subst.
    assert (K : prin_bytes (principal b h nm) = construct_bytes r) by (rewrite Hcb; unfold principal_bytes; destruct nm as [n|]; reflexivity).
    rewrite K. assert (Hlen : (length (construct_bytes r) <= 62)%nat) by (rewrite Hcb; unfold principal_bytes; cbn [length]; rewrite app_length; cbn [length]; lia).
    split.
    - exists ro. split; [reflexivity|]. split; [lia|]. split; [lia|]. split; [split; [exact Hro|split; [change (2 ^ 32) with m32; lia|exact Hb]]|]. intros x Hx. apply Hin. lia.
    - assert (prin_std_ok b h) by (split; [lia|split; [exact Hh|exact Rh]]). destruct nm as [n|]; cbn [principal prin_ok]; [|assumption].
      split; [assumption|]. split; [apply Hn; reflexivity|cbn [name_bytes] in Hnl; lia]. }
  assert (ER : forall code (p : option prin) w, 0 <= code < 3 -> match p with Some p => exists pw, w = VI32 1 :: pw /\ rep_bytes m P (prin_bytes p) pw /\ prin_ok p | None => w = [VI32 0; VI32 0; VI32 0] end ->
     rep m P (TResp TPrin complaint_ty) (complaint code p) (VI32 0 :: [VI32 0; VI32 0] ++ u128 code ++ w) /\ has_type (TResp TPrin complaint_ty) (complaint code p)).
  { intros code p w Hcode Hw. assert (Q : 0 <= code < 2 ^ 128) by lia. split.
    - cbn [rep]. exists [VI32 0; VI32 0], (u128 code ++ w). split; [reflexivity|]. split; [repeat constructor; cbn; lia|]. unfold complaint, complaint_ty. rewrite rep_tuple. cbn [rep_fields].
      exists (u128 code), w. split; [reflexivity|]. split; [reflexivity|]. split.
      { cbn [rep]. unfold u128. rewrite (Z.div_small code) by lia. reflexivity. }
      exists w, []. rewrite app_nil_r. split; [reflexivity|]. split; [reflexivity|]. split; [|reflexivity]. cbn [rep]. destruct p as [p|].
      + destruct Hw as (pw & -> & Hw & _). exists pw. auto.
      + exists [VI32 0; VI32 0]. split; [exact Hw|]. repeat constructor; cbn; lia.
    - unfold complaint, complaint_ty. cbn [has_type]. split; [reflexivity|]. split; [exact Q|]. split; [reflexivity|]. split; [|exact I]. destruct p as [p|]; [|exact I]. destruct Hw as (pw & _ & _ & Hw). exact Hw. }
  destruct Hc as [mn' v h nm Hbad|mn' b h nm H1 H2 Hn|mn' b h nm H1 H2 Hn Hw|mn' b h nm H1 H2 Hn Hw]; cbn [hd].
  - apply (ER 1 None); [lia|reflexivity].
  - apply (ER 2 None); [lia|reflexivity].
  - destruct (PR b eq_refl H1 H2 Hn eq_refl) as (Q1 & Q2). apply (ER 0 (Some (principal b h nm))); [lia|]. eexists. split; [reflexivity|]. split; [exact Q1|exact Q2].
  - destruct (PR b eq_refl H1 H2 Hn eq_refl) as (Q1 & Q2). split; [|exact Q2]. cbn [rep construct_vals]. eexists _, (u128 0 ++ [VI32 0; VI32 0; VI32 0]). split; [reflexivity|]. split; [exact Q1|].
    repeat constructor; cbn; lia.
Qed.

Lemma construct_wpf v h nm va ha na ro (st : store HS) (R : result HS -> Prop) :
  holds (smem st) va v -> (length v <= 1)%nat -> holds (smem st) ha h -> (length h <= 20)%nat ->
  holds (smem st) na (name_bytes nm) -> (length (name_bytes nm) <= 40)%nat -> (length (name_bytes nm) = 11%nat -> na + 16 <= msize (smem st)) ->
  0 <= ro -> ro + 150 <= msize (smem st) < m32 ->
  h = [] \/ ha + Z.of_nat (length h) <= ro \/ ro + 22 <= ha -> name_bytes nm = [] \/ na + Z.of_nat (length (name_bytes nm)) <= ro \/ ro + 22 <= na ->
  (forall ws m', only_changes (smem st) m' ro 150 -> rep m' (seg ro 150) (TResp TPrin complaint_ty) (construct_principal mn v h nm) ws ->
     has_type (TResp TPrin complaint_ty) (construct_principal mn v h nm) -> R (RVals ws (with_mem st m'))) ->
  wpf E "stdlib.principal-construct" ([VI32 va; vlen v; VI32 ha; vlen h] ++ [VI32 (if nm then 1 else 0); VI32 na; vlen (name_bytes nm)] ++ [VI32 ro]) st R.
Proof.
  intros H1 H2 H3 H4 H5 H6 H7 H8 H9 D1 D2 HR.
  destruct (C19_principal_construct_partial E HE mn HN va v ha h na nm ro st H1 H2 H3 H4 H5 H6 H7 H8 ltac:(lia) D1 D2) as (r & m' & Hc & Ho & Hb & Hcall).
  eapply calls_wpf; [destruct nm; exact Hcall|]. assert (Hs : msize m' = msize (smem st)) by apply Ho.
  destruct (construct_rep v h nm r m' ro (seg ro 150) Hc H2 H4 H6 (range_holds _ _ _ H1) (range_holds _ _ _ H3) Hb H8 ltac:(lia)) as (Q1 & Q2).
  { intros x Hx. unfold seg. lia. }
  apply HR; [eapply only_weaken; [exact Ho|lia|lia]|exact Q1|exact Q2].
Qed.

Lemma rep_area m P ro n t v ws : rep m P t v ws -> (forall x, P x -> ~ ro <= x < ro + n) -> match t with TBuff _ | TAscii _ => True | _ => False end ->
  has_type t v -> exists o bs, v = (match t with TBuff _ => CBuff bs | _ => CAscii bs end) /\ ws = [VI32 o; vlen bs] /\ holds m o bs /\
    (0 < n -> o + Z.of_nat (length bs) <= ro \/ ro + n <= o \/ bs = []) /\ (forall sp, (forall x, P x -> x < sp) -> bs <> [] -> o + Z.of_nat (length bs) <= sp).
Proof.
  intros Hr HP Ht Hty. assert (K : exists bs, v = (match t with TBuff _ => CBuff bs | _ => CAscii bs end) /\ rep_bytes m P bs ws).
  { destruct t; try contradiction; destruct v; cbn [has_type rep] in *; try contradiction; eauto. }
  destruct K as (bs & -> & o & -> & Ho & Hl & Hh & Hin). exists o, bs. split; [reflexivity|]. split; [reflexivity|]. split; [exact Hh|]. split.
  - intros Hn. assert (Hl2 : bs = [] \/ 0 < Z.of_nat (length bs)) by (destruct bs; [auto|right; cbn [length]; lia]). destruct Hl2 as [->|Hl2]; [auto|].
    destruct (Z_le_dec (o + Z.of_nat (length bs)) ro) as [|K1]; [auto|]. destruct (Z_le_dec (ro + n) o) as [|K2]; [auto|]. exfalso.
    destruct (Z_le_dec ro o); [apply (HP o); [apply Hin; lia|lia]|apply (HP ro); [apply Hin; lia|lia]].
  - intros sp Hsp Hne. destruct bs as [|b bs]; [congruence|]. pose proof (Hsp _ (Hin (o + Z.of_nat (length (b :: bs)) - 1) ltac:(cbn [length]; lia))) as K. lia.
Qed.
Definition nroom (on : option (frag * (venv -> M HS value) * Z * Z)) : Z := match on with Some (_, _, f, _) => f + 5 | None => 0 end.
Lemma construct_ok G kv kh fv fh (v h : frag) (mv mh : venv -> M HS value) on : impl G (TBuff kv) fv v mv -> kv <= 1 -> impl G (TBuff kh) fh h mh -> kh <= 20 ->
  match on with Some (c, m, f, k) => impl G (TAscii k) f c m /\ k <= 40 | None => True end ->
  impl G (TResp TPrin complaint_ty) (150 + fv + fh + nroom on) (e_construct v h (match on with Some (c, _, _, _) => Some c | None => None end))
    (fun r => bind (mv r) (fun v => bind (mh r) (fun h => match on with Some (_, m, _, _) => bind (m r) (fun n => do_construct mn v h (Some n)) | None => do_construct mn v h None end))).
Proof.
  intros HV Hkv HH Hkh HO. fr_of HV. fr_of HH.
  assert (P1 : 0 <= nroom on) by (unfold nroom; destruct on as [[[[c m] f] k]|]; [destruct HO as (HO & _); pose proof (impl_fr _ _ _ _ _ HO); lia|lia]).
  split; [lia|]. intros d B l code l' HC Hw. unfold e_construct in HC.
  destruct (create_call_stack_local TPrin false true l) as [[[o sz] cc] l1] eqn:Ec.
  destruct (v d B l1) as [cv l2] eqn:Ev. destruct (h d B l2) as [chh l3] eqn:Eh.
  assert (Hsz : sz = 150) by (unfold create_call_stack_local in Ec; destruct (add_local T32 l); injection Ec as _ <- _ _; reflexivity). subst sz.
  destruct (reserve_run E L X HX0 _ _ _ _ _ _ _ _ Ec Hw) as (Xc & Lo & No & Hres).
  ext_of HV Ev Xv. ext_of HH Eh Xh.
  assert (X02 : lext l l2) by (eapply lext_trans; eauto). assert (X03 : lext l l3) by (eapply lext_trans; eauto). assert (X13 : lext l1 l3) by (eapply lext_trans; eauto).
  set (cn := match on with Some (c, m, f, k) => let '(cn, l) := c d B l3 in (Const (VI32 1) :: cn, l) | None => ([Const (VI32 0); Const (VI32 0); Const (VI32 0)], l3) end).
  assert (HC' : (cc ++ cv ++ chh ++ fst cn ++ [LGet o; Call "stdlib.principal-construct"], snd cn) = (code, l')).
  { rewrite <- HC. unfold cn. destruct on as [[[[c m] f] k]|]; [destruct (c d B l3)|]; reflexivity. }
  clear HC. injection HC' as <- <-.
  assert (X34 : lext l3 (snd cn)).
  { unfold cn. destruct on as [[[[c m] f] k]|]; [|apply lext_refl; eapply lext_wf; eauto]. destruct HO as (HO & _). destruct (c d B l3) as [cc3 l4] eqn:E3. cbn [snd]. ext_of HO E3 XX. exact XX. }
  split; [eapply lext_trans; eauto|].
  intros F r js ls k st sp Q rs Hm HC HL HX HW. rewrite <- !app_assoc.
  pose proof (c_lo _ _ _ _ _ _ _ _ _ _ _ HC) as Hlo. pose proof (c_room _ _ _ _ _ _ _ _ _ _ _ HC) as Hrm.
  eapply Hres; [exact HC|lia|lenl|]. intros ls1 st1 Hh Hmem HM1 Hol HC1. rewrite <- Hh in Hm.
  (* the version *)
  eapply (impl_next1 _ _ _ _ _ _ _ _ _ _ HV Ev F (minus F sp 150)); [exact HM1| |exact Xc|apply minus_sub|eapply ctx_less; [exact HC1|lia]|exact Hm|exact HX|lenl|]; [lia|].
  intros vv h2 ls2 st2 sp2 ws2 HG2 HM2 Hm2 HL2. cbv beta in Hm2.
  assert (HMa : moved l1 ls1 st1 (sp + 150) fv ls2 st2 sp2) by apply HG2. pose proof (m_rng _ _ _ _ _ _ _ _ HMa) as Hr2.
  assert (HC2 : ctx G B r (minus F sp 150) l2 ls2 st2 sp2 fh) by (eapply ctx_minus; [exact HC|exact X02|exact HM2|lia|lia]).
  (* the hash *)
  eapply (impl_next1 _ _ _ _ _ _ _ _ _ _ HH Eh F (minus F sp 150)); [exact HM2| |exact X02|apply minus_sub|exact HC2|exact Hm2|exact HX|lenl|]; [lia|].
  intros hv h3 ls3 st3 sp3 ws3 HG3 HM3 Hm3 HL3. cbv beta in Hm3.
  assert (HMb : moved l2 ls2 st2 sp2 fh ls3 st3 sp3) by apply HG3. pose proof (m_rng _ _ _ _ _ _ _ _ HMb) as Hr3.
  pose proof (rep_moved _ _ _ _ _ _ _ _ _ _ _ _ HMb (g_rep _ _ _ _ _ _ _ _ _ _ _ _ _ HG2)) as RV3.
  pose proof (g_rep _ _ _ _ _ _ _ _ _ _ _ _ _ HG3) as RH3.
  pose proof (g_type _ _ _ _ _ _ _ _ _ _ _ _ _ HG2) as TV. pose proof (g_type _ _ _ _ _ _ _ _ _ _ _ _ _ HG3) as TH.
  assert (HO3 : nth_error ls3 o = Some (VI32 sp)).
  { rewrite (lkeep_get _ _ _ _ (m_ls _ _ _ _ _ _ _ _ HMb)) by exact (lext_live _ _ _ Xv Lo). rewrite (lkeep_get _ _ _ _ (m_ls _ _ _ _ _ _ _ _ HMa)); auto. }
  (* the end, in both cases *)
  assert (FIN : forall ls4 st4 sp4 n4 na (nm : option (list Z)), moved l ls st sp n4 ls4 st4 sp4 -> sp + 150 <= sp4 -> n4 <= 150 + fv + fh + nroom on -> nth_error ls4 o = Some (VI32 sp) ->
    rep (smem st4) (vis (minus F sp 150) sp4) (TBuff kv) vv ws2 -> rep (smem st4) (vis (minus F sp 150) sp4) (TBuff kh) hv ws3 ->
    holds (smem st4) na (name_bytes nm) -> (length (name_bytes nm) <= 40)%nat -> (length (name_bytes nm) = 11%nat -> na + 16 <= msize (smem st4)) ->
    name_bytes nm = [] \/ na + Z.of_nat (length (name_bytes nm)) <= sp \/ sp + 22 <= na ->
    do_construct mn vv hv (match nm with Some n => Some (CAscii n) | None => None end) (shost st4) = Some rs ->
    wp ([LGet o; Call "stdlib.principal-construct"] ++ js) (mkcfg ls4 (rev [VI32 (if nm then 1 else 0); VI32 na; vlen (name_bytes nm)] ++ rev ws3 ++ rev ws2 ++ k) st4) Q).
  { intros ls4 st4 sp4 n4 na nm HM4 Hsp4 Hn4 Ho4 RV RH Hna Hnl Hn11 Hdj Hrs.
    pose proof (ctx_msize _ _ _ _ _ _ _ _ _ _ _ _ _ _ _ HC HM4) as Hmz.
    assert (HP : forall x, vis (minus F sp 150) sp4 x -> ~ sp <= x < sp + 150) by (intros x (_ & _ & Hx); exact Hx).
    destruct (rep_area _ _ _ _ _ _ _ RV HP I TV) as (va & vb & -> & -> & HhV & _ & _).
    destruct (rep_area _ _ _ _ _ _ _ RH HP I TH) as (ha & hb & -> & -> & HhH & DH & _). cbn [has_type] in TV, TH.
    assert (Hrs' : rs = Done (construct_principal mn vb hb nm) (shost st4)) by (unfold do_construct, ret in Hrs; destruct nm; congruence). subst rs.
    cbn [app]. eapply wp_lget; [exact Ho4|].
    change (VI32 sp :: rev [VI32 (if nm then 1 else 0); VI32 na; vlen (name_bytes nm)] ++ rev [VI32 ha; vlen hb] ++ rev [VI32 va; vlen vb] ++ k)
      with (rev ([VI32 va; vlen vb; VI32 ha; vlen hb] ++ [VI32 (if nm then 1 else 0); VI32 na; vlen (name_bytes nm)] ++ [VI32 sp]) ++ k).
    eapply (wp_call_all E _ 8); [|reflexivity|].
    { unfold fun_arity. destruct HE as (HE1 & _). rewrite (HE1 "stdlib.principal-construct" _ eq_refl). reflexivity. }
    apply construct_wpf; auto; try (rewrite Hmz; lia); try lia.
    - destruct (DH ltac:(lia)) as [Hd|[Hd|Hd]]; [right; left; exact Hd|right; right; lia|left; exact Hd].
    - intros ws m' Hoc Hrp Htp. unfold qcall. cbn [ret_call cont].
      eapply (HW _ (shost st4) ls4 (with_mem st4 m') sp4 ws eq_refl). constructor; [|cbn [smem with_mem]|exact Htp|reflexivity].
      + eapply moved_more; [eapply moved_write; [exact HM4|exact Hoc|lia]|lia].
      + eapply rep_weaken; [|exact Hrp]. intros x Hx. unfold seg in Hx. split; [lia|]. eapply c_up; [exact HC|lia]. }
  rewrite ?app_assoc. rewrite <- (app_assoc (rev ws3)). rewrite <- !app_assoc in *. 
  unfold cn in *. destruct on as [[[[c m] f] kn]|].
  - (* a name *)
    destruct HO as (HO & Hkn). fr_of HO. destruct (c d B l3) as [c3 l4] eqn:E3. cbn [fst snd nroom] in *.
    assert (HC3 : ctx G B r (minus F sp 150) l3 ls3 st3 sp3 (f + 5)) by (eapply ctx_minus; [exact HC|exact X03|exact HM3|lia|lia]).
    change ((Const (VI32 1) :: c3) ++ [LGet o; Call "stdlib.principal-construct"] ++ js) with (Const (VI32 1) :: (c3 ++ [LGet o; Call "stdlib.principal-construct"] ++ js)).
    apply wp_const.
    eapply (impl_next1 _ _ _ _ _ _ _ _ _ _ HO E3 F (minus F sp 150)); [exact HM3| |exact X03|apply minus_sub|eapply ctx_less; [exact HC3|lia]|exact Hm3|exact HX|lenl|]; [lia|].
    intros nv h4 ls4 st4 sp4 ws4 HG4 HM4 Hm4 HL4. cbv beta in Hm4.
    assert (HMd : moved l3 ls3 st3 sp3 f ls4 st4 sp4) by apply HG4. pose proof (m_rng _ _ _ _ _ _ _ _ HMd) as Hr4.
    pose proof (ctx_msize _ _ _ _ _ _ _ _ _ _ _ _ _ _ _ HC HM4) as Hmz4.
    pose proof (g_rep _ _ _ _ _ _ _ _ _ _ _ _ _ HG4) as RN. pose proof (g_type _ _ _ _ _ _ _ _ _ _ _ _ _ HG4) as TN.
    destruct (rep_area _ _ sp 150 _ _ _ RN) as (na & nb & -> & -> & HhN & DN & BN); [intros x (_ & _ & Hx); exact Hx|exact I|exact TN|]. cbn [has_type] in TN.
    apply (FIN ls4 st4 sp4 _ na (Some nb) HM4); cbn [name_bytes]; try lia; auto.
    + rewrite (lkeep_get _ _ _ _ (m_ls _ _ _ _ _ _ _ _ HMd)) by exact (lext_live _ _ _ X13 Lo). exact HO3.
    + eapply rep_moved; [exact HMd|exact RV3].
    + eapply rep_moved; [exact HMd|exact RH3].
    + intros H11. specialize (BN sp4 ltac:(intros x (Hx & _); exact Hx) ltac:(intros ->; discriminate H11)). lia.
    + destruct (DN ltac:(lia)) as [Hd|[Hd|Hd]]; [right; left; exact Hd|right; right; lia|left; exact Hd].
  - cbn [fst snd nroom app] in *. do 3 apply wp_const.
    apply (FIN ls3 st3 sp3 _ 0 None HM3); cbn [name_bytes length]; try lia; auto.
    pose proof (ctx_msize _ _ _ _ _ _ _ _ _ _ _ _ _ _ _ HC HM3). apply holds_nil; change (2 ^ 32) with m32; lia.
Qed.
End Words.
