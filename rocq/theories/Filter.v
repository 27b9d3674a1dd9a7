(** * Emitted code of [filter]: model and proof support *)
From Coq Require Import ZArith String List Bool Lia.
Import ListNotations.
From Verif Require Import ReadProofs Wasm Std StdEnv WasmLogic WasmTac Mem MemFacts Bytes Spec SpecBytes SpecUtf8 ArithProofs Clar Rep RepFacts Emit EmitFacts EmitProofs Equal EqualProofs
  CallProofs ArgProofs Ast SpecLang Lang Typing LangFacts LangBase LangCtl LangEarly LangMem LangSeq LangList LangConcat LangSlice LangLaid LangIndex LangCopy LangCall LangFn LangFold LangMain.
Open Scope string_scope.
Open Scope list_scope.
Open Scope Z_scope.

(** words/conditionals.rs 440-567 [filter] with a user-defined discriminator [g]
    (always a plain call, 545, whatever the kind of [g]).  The local that counts the
    bytes of the output (477) is never set before the loop: it starts at zero
    because locals do.  The type conversion of the element (519-544) is the identity
    here: the parameter of [g] has the element type. *)
Definition e_filter (g : string) (t : ty) (a : frag) : frag := fun d B l =>
  let '(ca, l) := a d B l in
  let '(len, l) := add_local T32 l in
  let '(off, l) := add_local T32 l in
  let '(olen, l) := add_local T32 l in
  let '(out, _, cc, l) := create_call_stack_local t false true l in
  (ca ++ [LSet len; LSet off] ++ cc ++
   [Loop 0 0 (elem_code t off ++ [Call g] ++
      [If 0 0 [LGet out; LGet olen; B32 Add; LGet off; Const (VI32 (elem_size t)); MemCopy; LGet olen; Const (VI32 (elem_size t)); B32 Add; LSet olen] [];
       LGet off; Const (VI32 (elem_size t)); B32 Add; LSet off; LGet len; Const (VI32 (elem_size t)); B32 Sub; LTee len; BrIf 0]);
    LGet out; LGet olen], l).

(** wasm_generator.rs 520-700 [traverse_define_function], for a function with
    parameters [ps] whose body is [(filter g x)] (as [define_function]) *)
Definition define_filter (ps : list (string * ty)) (t : ty) (g x : string) : func :=
  let '(B, l) := param_locals ps empty_l in
  let '(fp, l) := add_local T32 l in
  let '(c, l) := e_filter g t (e_var x) 0%nat B l in
  mkfunc (param_types ps) (skipn (length (param_types ps)) (l_tys l)) (clar2wasm_ty t)
    ([GGet "stack-pointer"; LSet fp; Block 0 (length (clar2wasm_ty t)) c; LGet fp; GSet "stack-pointer"]).

(** the elements [g] answers true to *)
Fixpoint filterF {HS} (g : list value -> M HS value) (xs : list value) : M HS (list value) :=
  match xs with
  | [] => ret []
  | x :: xs => bind (g [x]) (fun b => match b with CBool b => bind (filterF g xs) (fun ys => ret (if b then x :: ys else ys)) | _ => bad end)
  end.

Lemma items_one t v i x : is_seq t = true -> has_type t v -> 0 <= i < seq_len v -> seq_nth v i = Some x ->
  seq_len (seq_slice v i (i + 1)) = 1 /\ seq_items (seq_slice v i (i + 1)) = [x] /\ has_type t (seq_slice v i (i + 1)).
Proof.
  intros Ht Hty Hi Hx. rewrite items_nth in Hx by lia.
  assert (HS' : forall {A} (l : list A) y, 0 <= i < Z.of_nat (length l) -> nth_error l (Z.to_nat i) = Some y -> sublist l i (i + 1) = [y]).
  { intros A l y Hl Hy. unfold sublist. replace (Z.to_nat (i + 1 - i)) with 1%nat by lia. rewrite (skipn_nth _ _ _ Hy). reflexivity. }
  destruct t; try discriminate; destruct v; cbn [has_type] in Hty; try contradiction; cbn [seq_len seq_items seq_slice] in *;
    rewrite ?nth_error_map' in Hx.
  1-3: (destruct (nth_error _ (Z.to_nat i)) as [b|] eqn:Eb; [|discriminate]); cbn [option_map] in Hx; injection Hx as <-; rewrite (HS' _ _ _ Hi Eb); cbn [length map has_type]; split; [reflexivity|]; split; [reflexivity|]; destruct Hty as (H1 & H2); split; [lia|]; constructor; [rewrite Forall_forall in H2; apply H2; eapply nth_error_In; exact Eb|constructor].
  rewrite (HS' _ _ _ Hi Hx). cbn [length map has_type]. split; [reflexivity|]. split; [reflexivity|]. destruct Hty as (H1 & H2). split; [lia|]. constructor; [rewrite Forall_forall in H2; apply H2; eapply nth_error_In; exact Hx|constructor].
Qed.

Definition seq_nil (t : ty) : value := match t with TBuff _ => CBuff [] | TAscii _ => CAscii [] | TUtf8 _ => CUtf8 [] | _ => CList [] end.
Lemma nil_facts t m P a : is_seq t = true -> ty_ok t -> 0 <= a < m32 -> a <= msize m <= m32 ->
  seq_len (seq_nil t) = 0 /\ seq_items (seq_nil t) = [] /\ has_type t (seq_nil t) /\ rep m P t (seq_nil t) [VI32 a; VI32 0].
Proof.
  intros Ht Hok Ha Hm. destruct t; try discriminate; cbn [seq_nil seq_len seq_items has_type rep length map flat_map ty_ok] in *.
  4: { split; [reflexivity|]. split; [reflexivity|]. split; [split; [cbn; lia|constructor]|]. apply (empty_rep m P n t a); assumption. }
  all: split; [reflexivity|]; split; [reflexivity|]; split; [split; [cbn; lia|apply Forall_nil]|].
  all: exists a; split; [reflexivity|]; split; [lia|]; split; [cbn; lia|].
  all: split; [|intros y Hy; cbn in Hy; lia].
  all: split; [lia|]; split; [cbn; lia|reflexivity].
Qed.
Lemma concat_items t v w : is_seq t = true -> has_type t v -> has_type t w -> exists c, seq_concat v w = Some c /\ seq_items c = seq_items v ++ seq_items w.
Proof. intros Ht Hv Hw. destruct t; try discriminate; destruct v; cbn [has_type] in Hv; try contradiction; destruct w; cbn [has_type] in Hw; try contradiction; cbn [seq_concat]; eexists; (split; [reflexivity|]); cbn [seq_items]; rewrite ?map_app; reflexivity. Qed.

Section Filter.
Context {HS : Type} {CH : chain HS} (E : env HS) (HE : has_std E) (L : list (ty * value * Z)) (X : Z) (HX0 : 0 <= X).
Variable funs : string -> list value -> M HS value.
Notation wp := (wp E).
Notation ctx := (ctx L X).

(** a plain call of [g] on the element on the stack *)
Lemma ask_ok g te (F : Z -> Prop) sp x wx (st : store HS) rs js ls k (Q : outcome HS -> Prop) : fun_ok E L X funs g [te] TBool -> callable L X F st sp ->
  rep (smem st) (vis F sp) te x wx -> has_type te x -> funs g [x] (shost st) = Some rs ->
  (forall c, rs = Abort c -> (forall st', gget (sglob st') "runtime-error-code" = Some (VI32 c) -> Q (OTrap TUnreachable st')) /\ (c = err_host -> forall st', Q (OTrap THost st'))) ->
  (forall b h st', rs = Done (CBool b) h -> below sp (smem st) (smem st') -> (forall n, gget (sglob st') n = gget (sglob st) n) -> shost st' = h ->
     wp js (mkcfg ls (VI32 (b2z b) :: k) st') Q) ->
  wp (Call g :: js) (mkcfg ls (rev wx ++ k) st) Q.
Proof.
  intros (Har & Hg) [C1 C2 C3 C4 C5 C6 C7] Hr Ht Hf HA HW.
  assert (Hl : length wx = length (flat_map clar2wasm_ty [te])) by (cbn [flat_map]; rewrite app_nil_r; eapply rep_len; exact Hr).
  eapply wp_call_all; [exact Har|exact Hl|]. eapply wpf_mono; [eapply (Hg [x] wx st sp F rs); auto|].
  - rewrite <- (app_nil_r wx). constructor; [exact Hr|constructor].
  - intros r Hres. destruct rs as [v h|v h|c]; [|contradiction|].
    + destruct Hres as (ws' & st' & -> & Hb & Hgl & Hh & Hr' & Ht'). unfold qcall. cbn [ret_call cont]. destruct v; cbn [has_type] in Ht'; try contradiction. cbn [rep] in Hr'. subst ws'. cbn [rev app].
      specialize (HW b h st' eq_refl Hb Hgl Hh). destruct b; exact HW.
    + destruct (HA c eq_refl) as (HA1 & HA2). unfold qcall. destruct Hres as [(st' & -> & He)|(st' & -> & He)]; cbn [ret_call cont]; auto.
Qed.

Lemma filter_run G g t x d B l code l' : is_seq t = true -> ty_ok t -> fun_ok E L X funs g [elem_ty t] TBool -> assoc x G = Some t ->
  e_filter g t (e_var x) d B l = (code, l') -> lwf l ->
  lext l l' /\ exists olen, nth_error (l_tys l') olen = Some T32 /\ (llen l <= olen)%nat /\
  forall F r js ls k (st : store HS) sp (Q : outcome HS -> Prop) rs v, ctx G B r F l ls st sp (call_stack_size t false true) -> assoc x r = Some v -> nth_error ls olen = Some (VI32 0) ->
    (llen l' <= length ls)%nat -> 0 < seq_len v -> filterF (funs g) (seq_items v) (shost st) = Some rs ->
    (forall c, rs = Abort c -> (forall st', gget (sglob st') "runtime-error-code" = Some (VI32 c) -> Q (OTrap TUnreachable st')) /\ (c = err_host -> forall st', Q (OTrap THost st'))) ->
    (forall w h ls' st' sp' ws', rs = Done (seq_items w) h -> gives F t w h l ls st sp (call_stack_size t false true) ls' st' sp' ws' -> wp js (mkcfg ls' (rev ws' ++ k) st') Q) ->
    wp (code ++ js) (mkcfg ls k st) Q.
Proof.
  intros Ht Hok Hg Hx HC Hw. remember (call_stack_size t false true) as sz eqn:Hsz.
  assert (P5 : 0 <= sz) by (rewrite Hsz; unfold call_stack_size; pose proof (size_nonneg t); pose proof (inmem_nonneg t false Hok); lia).
  unfold e_filter, e_var in HC. destruct (add_local T32 l) as [len l1] eqn:E1. destruct (add_local T32 l1) as [off l2] eqn:E2. destruct (add_local T32 l2) as [olen l3] eqn:E3.
  destruct (create_call_stack_local t false true l3) as [[[out sz1] cc] l4] eqn:Ec. assert (Hsz1 : sz1 = sz) by (rewrite Hsz; unfold create_call_stack_local in Ec; destruct (add_local T32 l3); congruence). subst sz1.
  pose proof (f_equal fst HC) as HC1; pose proof (f_equal snd HC) as HC2; cbn [fst snd] in HC1, HC2; clear HC; subst code l'.
  destruct (add_ok _ _ _ _ E1 Hw) as (X1 & L1 & N1). destruct (add_ok _ _ _ _ E2 (lext_wf _ _ X1)) as (X2 & L2 & N2). destruct (add_ok _ _ _ _ E3 (lext_wf _ _ X2)) as (X3 & L3 & N3).
  destruct (reserve_run E L X HX0 _ _ _ _ _ _ _ _ Ec (lext_wf _ _ X3)) as (Xc & Lo & No & Hres).
  assert (Y2 : lext l l2) by (eapply lext_trans; eauto). assert (Y3 : lext l l3) by (eapply lext_trans; eauto). assert (Y4 : lext l l4) by (eapply lext_trans; eauto).
  split; [exact Y4|]. exists olen. split; [|split].
  { unfold create_call_stack_local in Ec. destruct (add_local T32 l3) as [o5 l5] eqn:E5. assert (Hl5 : l5 = l4) by congruence. subst l5.
    unfold add_local in E3, E5. injection E3 as <- <-. injection E5 as _ <-. cbn [l_tys]. rewrite nth_error_app1 by (rewrite app_length; cbn [length]; lia). rewrite nth_error_app2, Nat.sub_diag by lia. reflexivity. }
  { destruct (llen_add _ _ _ _ E3) as (-> & _). apply (lext_len _ _ Y2). }
  intros F r js ls k st sp Q rs v HC Hv Hz HL Hne Hm HX HW. rewrite <- !app_assoc.
  assert (Q1 : (len < length ls)%nat) by (destruct L1; pose proof (lext_len _ _ X2); pose proof (lext_len _ _ X3); pose proof (lext_len _ _ Xc); lia).
  assert (Q2 : (off < length ls)%nat) by (destruct L2; pose proof (lext_len _ _ X3); pose proof (lext_len _ _ Xc); lia).
  assert (Q3 : (olen < length ls)%nat) by (destruct L3; pose proof (lext_len _ _ Xc); lia).
  assert (L13 : live l3 len) by (exact (lext_live _ _ _ X3 (lext_live _ _ _ X2 L1))). assert (L23 : live l3 off) by (exact (lext_live _ _ _ X3 L2)).
  assert (D1 : off <> len) by (intros ->; exact (N2 L1)). assert (D2 : olen <> len) by (intros ->; exact (N3 (lext_live _ _ _ X2 L1))). assert (D3 : olen <> off) by (intros ->; exact (N3 L2)).
  assert (D4 : out <> len) by (intros ->; exact (No L13)). assert (D5 : out <> off) by (intros ->; exact (No L23)). assert (D6 : out <> olen) by (intros ->; exact (No L3)).
  assert (HU : 1 <= unit_size t) by (clear - Ht Hok; destruct t; try discriminate; cbn [unit_size ty_ok] in *; try lia; destruct Hok as (_ & Hok); apply size_pos in Hok; lia).
  pose proof (c_lo _ _ _ _ _ _ _ _ _ _ _ HC) as Hlo. pose proof (c_room _ _ _ _ _ _ _ _ _ _ _ HC) as Hrm.
  destruct (c_vars _ _ _ _ _ _ _ _ _ _ _ HC _ _ Hx) as (is & v0 & ws & H1 & H2 & H3 & H4 & Hrv & Htv). rewrite Hv in H3. injection H3 as <-.
  destruct (rep_seq _ _ _ _ _ Ht Hrv) as (pv & -> & A1 & A2 & A3 & A4). pose proof (seq_type_len _ _ Ht Htv) as Hlv.
  assert (Hszm : sz = seq_max t * unit_size t) by (rewrite Hsz; apply seq_size; exact Ht).
  set (u := unit_size t) in *. set (nv := seq_len v * u) in *.
  assert (Hnv : nv <= sz) by (unfold nv; rewrite Hszm; clear - Hlv HU; nia).
  rewrite H1. eapply wp_lgets; [exact H4|]. cbn [rev app]. apply wp_lset. apply wp_lset.
  set (ls1 := lset (lset ls len (VI32 nv)) off (VI32 pv)).
  assert (Z1 : length ls1 = length ls) by (unfold ls1; rewrite !lset_len; reflexivity).
  assert (K1 : lkeep l ls ls1) by (unfold ls1; eapply lkeep_trans0; apply lkeep_lset; [exact N1|intros Hj; exact (N2 (lext_live _ _ _ X1 Hj))]).
  assert (S1 : nth_error ls1 len = Some (VI32 nv)) by (unfold ls1; rewrite nth_lset_ne by auto; apply lset_same; exact Q1).
  assert (O1 : nth_error ls1 off = Some (VI32 pv)) by (unfold ls1; apply lset_same; rewrite lset_len; exact Q2).
  assert (T1 : nth_error ls1 olen = Some (VI32 0)) by (unfold ls1; rewrite !nth_lset_ne by auto; exact Hz).
  assert (HM0 : moved l ls st sp 0 ls1 st sp) by (eapply moved_ls; [eapply moved_refl; exact HC|exact K1]).
  assert (HC3 : ctx G B r F l3 ls1 st sp sz) by (eapply ctx_moved; [exact HC|exact Y3|exact HM0|clear; lia]).
  eapply Hres; [exact HC3|clear - P5; lia|rewrite Z1; exact HL|]. intros ls2 st2 Hh Hmem HM2' Hol _. rewrite <- Hh in Hm.
  assert (HM2 : moved l ls st sp sz ls2 st2 (sp + sz)) by (replace sz with (0 + sz) at 1 by lia; eapply moved_trans; [exact Y3|exact HM0|exact HM2']).
  pose proof (m_ls _ _ _ _ _ _ _ _ HM2') as K2.
  assert (Hv2 : rep (smem st2) (vis F sp) t v [VI32 pv; VI32 nv]) by (rewrite Hmem; exact Hrv).
  destruct (nil_facts t (smem st2) (por (vis F sp) (seg sp 0)) sp Ht Hok ltac:(clear - Hlo Hrm P5 HX0; lia) ltac:(rewrite Hmem; clear - Hrm P5 HX0; lia)) as (B1 & B2 & B3 & B4).
  cbn [app].
  eapply wp_loop0 with (z := seq_len v) (I := fun z s => exists lsx stx acc i, s = mkcfg lsx [] stx /\ 0 <= i < seq_len v /\ z = seq_len v - i /\
     moved l ls st sp sz lsx stx (sp + sz) /\ rep (smem stx) (vis F sp) t v [VI32 pv; VI32 nv] /\
     nth_error lsx off = Some (VI32 (pv + i * u)) /\ nth_error lsx len = Some (VI32 (nv - i * u)) /\ nth_error lsx out = Some (VI32 sp) /\ nth_error lsx olen = Some (VI32 (seq_len acc * u)) /\
     rep (smem stx) (por (vis F sp) (seg sp (seq_len acc * u))) t acc [VI32 sp; VI32 (seq_len acc * u)] /\ has_type t acc /\ seq_len acc <= i /\
     bind (filterF (funs g) (skipn (Z.to_nat i) (seq_items v))) (fun ys => ret (seq_items acc ++ ys)) (shost stx) = Some rs).
  { clear - Hne; lia. }
  { exists ls2, st2, (seq_nil t), 0. split; [reflexivity|]. split; [clear - Hne; lia|]. split; [clear; lia|]. split; [exact HM2|]. split; [exact Hv2|].
    rewrite Z.mul_0_l, Z.add_0_r, Z.sub_0_r, B1, Z.mul_0_l. split; [rewrite (lkeep_get _ _ _ _ K2 L23); exact O1|]. split; [rewrite (lkeep_get _ _ _ _ K2 L13); exact S1|].
    split; [exact Hol|]. split; [rewrite (lkeep_get _ _ _ _ K2 L3); exact T1|]. split; [exact B4|]. split; [exact B3|]. split; [clear; lia|].
    rewrite B2. cbn [app]. change (skipn (Z.to_nat 0) (seq_items v)) with (seq_items v). unfold bind. rewrite Hm. destruct rs; reflexivity. }
  clear HM2' HM2 Hv2 K2 Hol Hm HC3 HM0 S1 O1 T1 K1 H4 Hh Hmem B4.
  intros z ls9 st9 Hz9 (lsx & stx & acc & i & Hcfg & Hi & Hzi & HMx & Hrx & Ox & Lx & Ux & Tx & Rx & Hta & Hla & Hf). apply cfg_inj in Hcfg as (-> & ->).
  assert (Zx : length lsx = length ls) by (apply lkeep_len with (l := l); apply HMx).
  assert (Hmzx : msize (smem stx) = msize (smem st)) by (eapply ctx_msize; [exact HC|exact HMx]).
  assert (HKx : callable L X F stx (sp + sz)) by (eapply ctx_callable with (n := 0); [eapply ctx_moved; [exact HC|exact Y4|exact HMx|clear; lia]|clear; lia]).
  change (elem_code t off) with (fetch_code t off).
  eapply (fetch_ok E t v i pv off); [exact Ht|exact Htv|exact Hrx|exact Hi|exact Ox|rewrite Hmzx; fold u nv; clear - A3 Hrm HX0 P5 Hlo; lia|apply A1|].
  intros y wy Hy Hry Hty. rewrite (items_skip _ _ _ (proj1 Hi) Hy) in Hf. cbn [filterF] in Hf. rewrite bind_assoc in Hf. unfold bind at 1 in Hf.
  destruct (funs g [y] (shost stx)) as [rs1|] eqn:Hap; [|discriminate].
  assert (Hry' : rep (smem stx) (vis F (sp + sz)) (elem_ty t) y wy) by (eapply rep_weaken; [|exact Hry]; intros a (Ha1 & Ha2); split; [clear - Ha1 P5; lia|exact Ha2]).
  cbn [app]. eapply (ask_ok g (elem_ty t) F (sp + sz) y wy stx rs1); [exact Hg|exact HKx|exact Hry'|exact Hty|exact Hap| |].
  { intros c ->. assert (Hrs : rs = Abort c) by congruence. subst rs. exact (HX c eq_refl). }
  intros b h st5 -> Hb5 Hg5 Hh5. rewrite <- Hh5 in Hf. cbv beta iota in Hf. rewrite bind_assoc in Hf.
  assert (Hmz5 : msize (smem st5) = msize (smem st)) by (destruct Hb5 as (-> & _); exact Hmzx).
  assert (HM5 : moved l ls st sp sz lsx st5 (sp + sz)) by (eapply moved_call; [exact HMx|apply lext_refl; exact Hw|apply lkeep_refl|exact Hb5|exact Hg5]).
  assert (Hr5 : rep (smem st5) (vis F sp) t v [VI32 pv; VI32 nv]) by (destruct Hb5 as (Hb51 & Hb52); eapply rep_frame; [exact Hb51| |intros a Ha; exact Ha|exact Hrx]; intros a (Ha & _); apply Hb52; clear - Ha P5; lia).
  assert (Hiu : 0 <= i * u /\ i * u + u <= nv /\ 0 <= seq_len acc * u <= i * u) by (pose proof (seq_type_len _ _ Ht Hta); unfold nv; clear - Hi HU Hla H; nia).
  assert (R5 : rep (smem st5) (por (vis F sp) (seg sp (seq_len acc * u))) t acc [VI32 sp; VI32 (seq_len acc * u)]).
  { destruct Hb5 as (Hb51 & Hb52). eapply rep_frame; [exact Hb51| |intros a Ha; exact Ha|exact Rx]. intros a [(Ha & _)|Ha]; apply Hb52; [clear - Ha P5; lia|unfold seg in Ha; clear - Ha Hiu Hnv HU; lia]. }
  clear Rx Hrx HMx HKx Hry Hry' Hap Hh5 h.
  (* after the element has been kept or not *)
  match goal with |- wp _ _ ?q => set (QL := q) end.
  assert (TAIL : forall ls6 st6 acc', shost st6 = shost st5 -> moved l ls st sp sz ls6 st6 (sp + sz) -> rep (smem st6) (vis F sp) t v [VI32 pv; VI32 nv] ->
     nth_error ls6 off = Some (VI32 (pv + i * u)) -> nth_error ls6 len = Some (VI32 (nv - i * u)) -> nth_error ls6 out = Some (VI32 sp) -> nth_error ls6 olen = Some (VI32 (seq_len acc' * u)) ->
     rep (smem st6) (por (vis F sp) (seg sp (seq_len acc' * u))) t acc' [VI32 sp; VI32 (seq_len acc' * u)] -> has_type t acc' -> seq_len acc' <= i + 1 ->
     bind (filterF (funs g) (skipn (Z.to_nat (i + 1)) (seq_items v))) (fun ys => ret (seq_items acc' ++ ys)) (shost st5) = Some rs ->
     wp [LGet off; Const (VI32 (elem_size t)); B32 Add; LSet off; LGet len; Const (VI32 (elem_size t)); B32 Sub; LTee len; BrIf 0] (mkcfg ls6 [] st6) QL).
  { clear Hf HM5 Hr5 R5 Hta Hla. intros ls6 st6 acc' Hh6 HM6 Hr6 O6 L6 U6 T6 R6 Hta Hla Hf. rewrite <- Hh6 in Hf.
    assert (Z6 : length ls6 = length ls) by (apply lkeep_len with (l := l); apply HM6).
    pose proof (seq_type_len _ _ Ht Hta) as Hla0.
    assert (Hau : 0 <= seq_len acc' * u <= (i + 1) * u) by (clear - Hla Hla0 HU; nia).
    eapply wp_lget; [exact O6|]. apply wp_const. change (elem_size t) with u.
    eapply wp_b32; [cbn [ibin]; replace (pv + i * u + u) with (pv + (i + 1) * u) by (clear; lia); rewrite (Z.mod_small (pv + (i + 1) * u)) by (clear - Hiu A1 A2 A3 Hrm HX0 P5 Hlo HU; lia); reflexivity|].
    apply wp_lset. eapply wp_lget; [rewrite nth_lset_ne by auto; exact L6|]. apply wp_const.
    eapply wp_b32; [cbn [ibin]; replace (nv - i * u - u) with (nv - (i + 1) * u) by (clear; lia); rewrite (Z.mod_small (nv - (i + 1) * u)) by (clear - Hiu A2 HU; lia); reflexivity|].
    apply wp_ltee. set (ls7 := lset (lset ls6 off _) len _).
    assert (HM7 : moved l ls st sp sz ls7 st6 (sp + sz)).
    { eapply moved_ls; [exact HM6|]. unfold ls7. eapply lkeep_trans0; apply lkeep_lset; [intros Hj; exact (N2 (lext_live _ _ _ X1 Hj))|exact N1]. }
    assert (U7 : nth_error ls7 out = Some (VI32 sp)) by (unfold ls7; rewrite !nth_lset_ne by auto; exact U6).
    assert (T7 : nth_error ls7 olen = Some (VI32 (seq_len acc' * u))) by (unfold ls7; rewrite !nth_lset_ne by auto; exact T6).
    unfold QL. destruct (Z.eq_dec (i + 1) (seq_len v)) as [He|He].
    - replace (nv - (i + 1) * u) with 0 by (rewrite He; unfold nv; clear; lia). apply wp_brif_eqz; [intros _|intros HH; congruence]. apply wp_nil. unfold qloop. unfold setstk. cbn [clocals cstore cstack app].
      assert (Hsk : skipn (Z.to_nat (i + 1)) (seq_items v) = []) by (apply skipn_all2; pose proof (items_len _ _ Ht Htv) as HI; clear - HI He; lia).
      rewrite Hsk in Hf. cbn [filterF] in Hf. unfold bind, ret in Hf. rewrite app_nil_r in Hf. injection Hf as <-.
      eapply wp_lget; [exact U7|]. eapply wp_lget; [exact T7|]. apply (HW acc' (shost st6) ls7 st6 (sp + sz) [VI32 sp; VI32 (seq_len acc' * u)] eq_refl). constructor; [exact HM7| |exact Hta|reflexivity].
      eapply rep_weaken; [|exact R6]. intros a [(Ha1 & Ha2)|Ha]; [split; [clear - Ha1 P5; lia|exact Ha2]|]. unfold seg in Ha. split; [rewrite He in Hau; fold nv in Hau; clear - Ha Hau Hnv; lia|].
      eapply c_up; [exact HC|clear - Ha; lia].
    - assert (Hlt : i + 1 < seq_len v) by (clear - Hi He; lia). assert (Hnz : nv - (i + 1) * u <> 0) by (unfold nv; clear - Hlt HU; nia).
      apply wp_brif_eqz; [intros HH; congruence|intros _]. unfold qloop. unfold setstk. cbn [clocals cstore cstack app firstn].
      exists (seq_len v - (i + 1)). split; [clear - Hlt Hzi Hi; lia|]. exists ls7, st6, acc', (i + 1). split; [reflexivity|]. split; [clear - Hi Hlt; lia|]. split; [reflexivity|].
      split; [exact HM7|]. split; [exact Hr6|]. split; [unfold ls7; rewrite nth_lset_ne by auto; apply lset_same; rewrite Z6; exact Q2|]. split; [unfold ls7; apply lset_same; rewrite lset_len, Z6; exact Q1|].
      split; [exact U7|]. split; [exact T7|]. split; [exact R6|]. split; [exact Hta|]. split; [exact Hla|exact Hf]. }
  clearbody QL. apply wp_if0. destruct b; cbn [b2z Z.eqb].
  - (* kept *)
    destruct (items_one t v i y Ht Htv Hi Hy) as (I1 & I2 & I3). destruct (concat_items t acc _ Ht Hta I3) as (c & Hc & Hci).
    pose proof (seq_concat_len _ _ _ Hc) as Hcl. rewrite I1 in Hcl.
    assert (Hct : has_type t c) by (eapply seq_concat_type; [exact Ht|exact Hta|exact I3|exact Hc|clear - Hcl Hla Hi Hlv; lia]).
    eapply wp_lget; [exact Ux|]. eapply wp_lget; [exact Tx|].
    eapply wp_b32; [cbn [ibin]; rewrite (Z.mod_small (sp + seq_len acc * u)) by (clear - Hiu Hnv Hrm HX0 P5 Hlo HU; lia); reflexivity|].
    eapply wp_lget; [exact Ox|]. apply wp_const. change (elem_size t) with u. set (dst := sp + seq_len acc * u) in *.
    assert (Hd : sp <= dst /\ dst + u <= sp + sz) by (unfold dst; clear - Hiu Hnv; lia).
    apply wp_memcopy; [rewrite Hmz5; clear - Hiu A3 Hrm HX0 P5 Hlo HU A1; lia|rewrite Hmz5; clear - Hd Hrm HX0 Hlo HU; lia|].
    eapply wp_lget; [exact Tx|]. apply wp_const. eapply wp_b32; [cbn [ibin]; replace (seq_len acc * u + u) with (seq_len c * u) by (rewrite Hcl; clear; lia); rewrite (Z.mod_small (seq_len c * u)) by (rewrite Hcl; clear - Hiu A2 HU; lia); reflexivity|].
    apply wp_lset. apply qb_done. set (m6 := mcopy (smem st5) dst (pv + i * u) u).
    assert (Ho6 : only_changes (smem st5) m6 dst u) by apply only_mcopy.
    assert (Hb6 : below sp (smem st5) m6) by (eapply below_only; [exact Ho6|apply Hd]).
    eapply (TAIL _ (with_mem st5 m6) c).
    + reflexivity.
    + eapply moved_write; [eapply moved_ls; [exact HM5|apply lkeep_lset; intros Hj; exact (N3 (lext_live _ _ _ Y2 Hj))]|exact Ho6|apply Hd].
    + cbn [smem with_mem]. destruct Hb6 as (Hb61 & Hb62). eapply rep_frame; [exact Hb61| |intros a Ha; exact Ha|exact Hr5]. intros a (Ha & _). apply Hb62. exact Ha.
    + rewrite nth_lset_ne by auto. exact Ox.
    + rewrite nth_lset_ne by auto. exact Lx.
    + rewrite nth_lset_ne by auto. exact Ux.
    + apply lset_same. rewrite Zx. exact Q3.
    + cbn [smem with_mem].
      assert (Hone : rep (smem st5) (vis F sp) t (seq_slice v i (i + 1)) [VI32 (pv + i * u); VI32 u]).
      { eapply rep_weaken; [|eapply laid_rep; [exact Ht|eapply laid_slice; [exact Ht|eapply rep_laid; [exact Ht|exact Hr5]|clear - Hi; lia|clear - Hi; lia]|rewrite I1; fold u; clear; lia| |]].
        - fold u. intros a [Ha|Ha]; [exact Ha|]. apply A4. fold u nv. unfold seg in Ha. clear - Ha Hiu. lia.
        - fold u. clear - Hiu A1 A2 A3 Hrm HU HX0 P5 Hlo. lia.
        - fold u. rewrite Hmz5. clear - Hiu A1 A2 A3 Hrm HU HX0 P5 Hlo. lia. }
      assert (Hdis : forall a, vis F sp a -> ~ seg dst u a) by (intros a (Ha & _) Ha2; unfold seg in Ha2; clear - Ha Ha2 Hd; lia).
      pose proof (copy_in (smem st5) (vis F sp) t _ _ dst u Ht Hone Hdis ltac:(clear - Hd Hlo; lia) ltac:(rewrite Hmz5; clear - Hd Hrm HX0; lia) ltac:(clear - Hd Hrm HX0 HU; lia)) as Hcp. fold m6 in Hcp.
      replace (seq_len c * u) with (seq_len acc * u + u) by (rewrite Hcl; clear; lia).
      eapply (join_rep m6 _ t acc (seq_slice v i (i + 1)) c sp (seq_len acc * u) u Ht); [| |exact Hc|unfold m6; rewrite msize_mcopy, Hmz5; clear - Hrm; lia].
      * eapply rep_frame; [apply (proj1 Ho6)| | |exact R5].
        -- intros a Ha. apply (proj2 Ho6). destruct Ha as [(Ha & _)|Ha]; [clear - Ha Hd; lia|unfold seg in Ha; fold dst in Ha; clear - Ha; lia].
        -- intros a [Ha|Ha]; [left; exact Ha|right; unfold seg in *; clear - Ha HU; lia].
      * eapply rep_weaken; [|exact Hcp]. intros a [Ha|Ha]; [left; exact Ha|right; unfold seg in *; unfold dst in Ha; clear - Ha Hiu; lia].
    + exact Hct.
    + rewrite Hcl. clear - Hla. lia.
    + rewrite <- Hf. rewrite Hci, I2. unfold bind, ret. destruct (filterF (funs g) _ (shost st5)) as [[ys h'|v' h'|cd]|]; try reflexivity. cbn. rewrite <- app_assoc. reflexivity.
  - (* dropped *)
    apply qb_done. eapply (TAIL lsx st5 acc eq_refl HM5 Hr5 Ox Lx Ux Tx R5 Hta); [clear - Hla; lia|].
    rewrite <- Hf. unfold bind, ret. destruct (filterF (funs g) _ (shost st5)) as [[ys h'|v' h'|cd]|]; reflexivity.
Qed.

Lemma fill_zero ws tys n o : length ws = n -> (n <= o)%nat -> nth_error tys o = Some T32 -> nth_error (ws ++ map zero_of (skipn n tys)) o = Some (VI32 0).
Proof.
  intros Hn Ho Ht. rewrite nth_error_app2 by lia. rewrite nth_error_map'. rewrite Hn. replace (nth_error (skipn n tys) (o - n)) with (Some T32); [reflexivity|].
  rewrite <- Ht. clear - Ho. assert (H : forall k j, nth_error (skipn k tys) j = nth_error tys (k + j)).
  { clear. induction tys as [|y tys IH]; intros [|k] j; cbn [skipn Nat.add]; try reflexivity; [destruct j; reflexivity|]. cbn [nth_error]. apply IH. }
  symmetry. rewrite H. f_equal. lia.
Qed.

Lemma filter_fun_ok ps t x g f : is_seq t = true -> ty_ok t -> fun_ok E L X funs g [elem_ty t] TBool -> assoc x ps = Some t ->
  efun E f = Some (define_filter ps t g x) ->
  forall vs ws (st : store HS) sp (F : Z -> Prop) v rs,
    gget (sglob st) "stack-pointer" = Some (VI32 sp) -> (exists w, gget (sglob st) "runtime-error-code" = Some w) -> 0 <= sp ->
    (forall a, sp <= a -> F a) -> Forall (held (smem st) (vis F sp)) L -> sp + call_stack_size t false true + X <= msize (smem st) < m32 -> msize (smem st) <= chain_cap (HS := HS) ->
    rep_list (smem st) (vis F sp) (map snd ps) vs ws -> Forall2 has_type (map snd ps) vs ->
    assoc x (combine (map fst ps) vs) = Some v -> 0 < seq_len v -> filterF (funs g) (seq_items v) (shost st) = Some rs ->
    wpf E f ws st (fun r => match rs with
      | Done ys h => exists w ws' st', r = RVals ws' st' /\ seq_items w = ys /\ below sp (smem st) (smem st') /\ (forall n, gget (sglob st') n = gget (sglob st) n) /\
          shost st' = h /\ rep (smem st') F t w ws' /\ has_type t w
      | Abort c => (exists st', r = RTrap TUnreachable st' /\ gget (sglob st') "runtime-error-code" = Some (VI32 c)) \/
          (exists st', r = RTrap THost st' /\ c = err_host)
      | Early _ _ => True
      end).
Proof.
  intros Ht Hok Hg Hx HE' vs ws st sp F v rs A1 A2 A3 A4 A5 A6 ACap A7 A8 Hv Hne Hf.
  assert (P5 : 0 <= call_stack_size t false true) by (unfold call_stack_size; pose proof (size_nonneg t); pose proof (inmem_nonneg t false Hok); lia).
  unfold define_filter in HE'. destruct (param_locals ps empty_l) as [B l0] eqn:Ep. destruct (add_local T32 l0) as [fp l1] eqn:Ea.
  destruct (e_filter g t (e_var x) 0%nat B l1) as [c l2] eqn:Ec.
  assert (Hpt : param_types ps = flat_map clar2wasm_ty (map snd ps)) by (unfold param_types; rewrite !flat_map_concat_map, map_map; reflexivity).
  eapply wpf_intro; [exact HE'|]. cbn [fbody flocals fresults].
  set (zs := map zero_of (skipn (length (param_types ps)) (l_tys l2))).
  assert (Hw0 : lwf empty_l) by (split; constructor).
  destruct (params_ok (smem st) (vis F sp) ps empty_l B l0 vs ws [] zs Ep Hw0 eq_refl A7 A8) as (X0 & N0 & HB). cbn [app] in HB.
  destruct (add_ok _ _ _ _ Ea (lext_wf _ _ X0)) as (X1 & L1 & NL1).
  destruct (filter_run ps g t x _ _ _ _ _ Ht Hok Hg Hx Ec (lext_wf _ _ X1)) as (X2 & olen & To & Lo & Hrun).
  pose proof (rep_list_len _ _ _ _ _ A7) as Hwl. rewrite <- Hpt in Hwl.
  assert (Hlen : (llen l2 <= length (ws ++ zs))%nat) by (unfold zs; rewrite app_length, map_length, skipn_length, Hwl; unfold llen; lia).
  assert (Hzo : nth_error (ws ++ zs) olen = Some (VI32 0)) by (apply fill_zero; [exact Hwl|pose proof (lext_len _ _ X1); change (llen empty_l) with 0%nat in N0; lia|exact To]).
  eapply wp_gget; [exact A1|]. apply wp_lset. apply wp_block. unfold setstk. cbn [clocals cstack cstore firstn skipn].
  set (ls1 := lset (ws ++ zs) fp (VI32 sp)).
  assert (Hlen1 : length ls1 = length (ws ++ zs)) by apply lset_len.
  assert (K1 : lkeep l0 (ws ++ zs) ls1) by (apply lkeep_lset; exact NL1).
  assert (Hfp : nth_error ls1 fp = Some (VI32 sp)). { apply lset_same. destruct L1 as (L1 & _). pose proof (lext_len _ _ X2). lia. }
  assert (Hz1 : nth_error ls1 olen = Some (VI32 0)) by (unfold ls1; rewrite nth_lset_ne; [exact Hzo|destruct L1; lia]).
  rewrite <- (app_nil_r c).
  assert (HC : ctx ps B (combine (map fst ps) vs) F l1 ls1 st sp (call_stack_size t false true)).
  { constructor; auto. eapply bdyn_move; [exact HB|exact X1|exact K1|reflexivity|reflexivity|auto]. }
  eapply Hrun; [exact HC|exact Hv|exact Hz1|rewrite Hlen1; exact Hlen|exact Hne|exact Hf| |].
  - intros cd ->. unfold qblock. split; [intros st' Hc|intros Hc st']; cbn [exit_block cont]; unfold qfunc; cbn [exit_func]; [left|right]; exists st'; auto.
  - intros w h ls' st' sp' ws' -> HG. apply wp_nil. unfold qblock. cbn [exit_block]. unfold setstk. cbn [clocals cstack cstore]. rewrite !app_nil_r.
    destruct HG as [[M1 M2 M3 M4 M5] G2 G3 G4]. cbn [cont]. pose proof (rep_len _ _ _ _ _ G2) as Hwl'. unfold setstk. cbn [clocals cstore cstack].
    eapply wp_lget; [rewrite (lkeep_get _ _ _ _ M1 L1); exact Hfp|].
    apply wp_gset. apply wp_nil. unfold qfunc, exit_func. cbn [cstack cstore].
    rewrite rev_involutive.
    eexists w, ws', _. split; [reflexivity|]. cbn [smem sglob shost with_glob]. split; [reflexivity|]. split; [exact M2|]. split.
    { intros n. destruct (String.eqb_spec n "stack-pointer") as [->|Hn].
      - rewrite A1. eapply gget_set. exact M3.
      - rewrite gget_set_other by exact Hn. apply M4. exact Hn. }
    split; [exact G4|]. split; [|exact G3]. eapply rep_weaken; [|exact G2]. intros a (_ & Ha). exact Ha.
Qed.
End Filter.
