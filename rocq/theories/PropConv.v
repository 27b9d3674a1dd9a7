(** * C74: integers become strings and strings integers as Clarity says *)
From Coq Require Import ZArith String List Bool Lia.
Import ListNotations.
From Verif Require Import Wasm Std StdEnv WasmLogic WasmTac Spec Mem MemFacts Bytes SpecBytes SpecUtf8 Clar Codec Emit Rep RepFacts WriteProofs ArgProofs
  ParseProofs ParseIntProofs ParseSpecs PropStrings Ast SpecLang Lang Typing LangFacts LangBase LangCtl LangMem LangSeq LangCall LangPrim LangMain LangPlain PropLang SpecChain ConstProofs PropCodec SpecConv Conv.
Open Scope string_scope.
Open Scope list_scope.
Open Scope Z_scope.

(** ** Meaning *)
(** the text of an integer is its canonical decimal notation (SpecBytes.v), and no other string is *)
Theorem C74_text_is_canonical : forall n s, canonical n s <-> s = text n.
Proof. intros n s. split; [apply canonical_text|]. intros ->. apply text_canonical. Qed.
Print Assumptions C74_text_is_canonical.
(** of at most 40 characters *)
Theorem C74_text_fits : forall n, is_i128 n \/ is_u128 n -> (length (text n) <= 40)%nat.
Proof. intros n H. apply text_len in H. lia. Qed.
Print Assumptions C74_text_fits.
(** reading what was printed gives the integer back, and the compiled code reads it right too
    ([strict]) *)
Theorem C74_reading_back : forall {HS} {CH : chain HS} strict n (h : HS) w, w = IntToAscii \/ w = IntToUtf8 ->
  (is_i128 n -> bind (do_conv strict w (CInt n)) (do_conv strict StringToInt) h = Some (Done (CSome (CInt n)) h)) /\
  (is_u128 n -> bind (do_conv strict w (CUInt n)) (do_conv strict StringToUint) h = Some (Done (CSome (CUInt n)) h)).
Proof.
  intros HS CH strict n h w Hw. split; intros Hn.
  - destruct (canonical_int n (text n) Hn (text_canonical n)) as (H1 & H2).
    assert (F : fine_int (text n) = true).
    { unfold fine_int. change (digits_of (text n)) with (unsign (text n)). rewrite (proj2 (Nat.leb_le _ _) H2). destruct (text n); [discriminate H1|reflexivity]. }
    destruct Hw as [-> | ->]; unfold bind; cbn [do_conv]; unfold ret; cbn [do_conv]; rewrite F, orb_true_r, H1; reflexivity.
  - assert (C : canonical_nat n (text n)). { destruct (text_canonical n) as [(_ & C)|(C & _)]; [exact C|]. unfold is_u128 in Hn. lia. }
    destruct (canonical_uint n (text n) Hn C) as (H1 & H2 & H3).
    assert (F : fine_uint (text n) = true).
    { unfold fine_uint. rewrite (proj2 (Nat.leb_le _ _) H2). unfold wraps. apply negb_true_iff. destruct C as (_ & C1 & C2 & _). rewrite C1, C2. cbn [andb]. rewrite (proj2 (Z.leb_gt _ _)); [reflexivity|]. unfold is_u128 in Hn. lia. }
    destruct Hw as [-> | ->]; unfold bind; cbn [do_conv]; unfold ret; cbn [do_conv]; rewrite F, orb_true_r, H1; reflexivity.
Qed.
Print Assumptions C74_reading_back.

(** ** The module: the program [ds] and a function with these words *)
Record conv_fun := mkconvfun { cf_params : list (string * ty); cf_body : cexp }.
Definition cf_ret (a : conv_fun) : ty := cexp_ty (cf_body a).
Definition define_conv (ds : list fundef) (a : conv_fun) : func := define_body (cf_params a) (cf_ret a) (comp_cexp (prog_sig ds) (cf_ret a) (cf_body a)).
Definition conv_env {HS} (host : string -> option (list vt * (list val -> store HS -> result HS))) (ds : list fundef) (f : string) (a : conv_fun) : env HS :=
  mkenv (fun n => match assoc n std_funs with Some g => Some g | None => assoc n ((f, define_conv ds a) :: compile_defs ds) end) host std_table.
(** the type checker's rules for these words *)
Definition takes (w : conv) (t : ty) : bool :=
  match w, t with
  | (StringToInt | StringToUint), (TAscii _ | TUtf8 _) => true
  | (IntToAscii | IntToUtf8), (TInt | TUInt) => true
  | _, _ => false
  end.
Fixpoint wt_cexp (S : list (string * fsig)) (rt : ty) (G : tenv) (s : cexp) : bool :=
  match s with
  | XExpr e => wt S rt G e
  | XConv w a => takes w (cexp_ty a) && wt_cexp S rt G a
  | XLet x a b => wt_cexp S rt G a && wt_cexp S rt ((x, cexp_ty a) :: G) b
  | XIf c a b => wt_cexp S rt G c && wt_cexp S rt G a && wt_cexp S rt G b &&
      (if ty_eq_dec (cexp_ty c) TBool then true else false) && (if ty_eq_dec (cexp_ty b) (cexp_ty a) then true else false)
  end.
Fixpoint cexp_lits (s : cexp) : list (ty * value * Z) :=
  match s with
  | XExpr e => lits e
  | XConv _ a => cexp_lits a
  | XLet _ a b => cexp_lits a ++ cexp_lits b
  | XIf a b c => cexp_lits a ++ cexp_lits b ++ cexp_lits c
  end.
(** the call stack space the generator asks for *)
Fixpoint cexp_frame (S : list (string * fsig)) (s : cexp) : Z :=
  match s with
  | XExpr e => Lang.frame S e
  | XConv w a => cexp_frame S a + match w with IntToAscii => 40 | IntToUtf8 => 160 | _ => 0 end
  | XLet _ a b => cexp_frame S a + cexp_frame S b
  | XIf c a b => cexp_frame S c + cexp_frame S a + cexp_frame S b
  end.
Definition conv_room (ds : list fundef) (a : conv_fun) : Z := cexp_frame (prog_sig ds) (cf_body a) + frames ds.

Record conv_module (ds : list fundef) (f : string) (a : conv_fun) : Prop := {
  vm_prog : wt_prog ds = true;
  vm_new : has_key f (map (fun d => (fd_name d, fd_ret d)) ds) = false;
  vm_typed : wt_cexp (prog_sig ds) (cf_ret a) (cf_params a) (cf_body a) = true;
  vm_own : own_names ds;
  vm_name : assoc f std_funs = None }.
(** [vr_cap]: a memory below 4 GiB is a number of pages and ends long before; [vr_pos]: the
    stack starts after the constants of the standard library *)
Record conv_ready {HS} {CH : chain HS} (room : Z) (ds : list fundef) (a : conv_fun) (st : store HS) (sp : Z) : Prop := {
  vr_sp : gget (sglob st) "stack-pointer" = Some (VI32 sp);
  vr_err : exists w, gget (sglob st) "runtime-error-code" = Some w;
  vr_pos : 4 <= sp;
  vr_room : sp + room <= msize (smem st) < 2 ^ 32;
  vr_cap : msize (smem st) <= chain_cap (HS := HS) /\ chain_cap (HS := HS) + 4 < 2 ^ 32;
  vr_lits : Forall (held (smem st) (fun a => a < sp)) (cexp_lits (cf_body a) ++ prog_lits ds) }.
Definition run_conv {HS} {CH : chain HS} (strict : bool) (ds : list fundef) (a : conv_fun) (vs : list value) (g : HS) : option (res HS value) :=
  as_fun (eval_cexp strict (run_defs strict ds) (cf_body a) (combine (map fst (cf_params a)) vs)) g.

(** a strict result is the reference result *)
Lemma eval_cexp_strict {HS} {CH : chain HS} ds s : forall r (g : HS) rs, eval_cexp true (run_defs true ds) s r g = Some rs -> eval_cexp false (run_defs false ds) s r g = Some rs.
Proof.
  assert (DD : forall w v (g : HS) rs, do_conv true w v g = Some rs -> do_conv false w v g = Some rs).
  { intros w v g rs. unfold do_conv. destruct w, v; auto; cbn [negb orb]; repeat match goal with |- context [if ?b then _ else _] => destruct b end; auto; discriminate. }
  induction s as [e|w a IHa|x a IHa b IHb|c IHc a IHa b IHb]; intros r g rs; cbn [eval_cexp].
  - intros H. exact (eval_strict _ _ (run_strict ds) e r g _ H).
  - unfold bind. destruct (eval_cexp true _ a r g) as [x|] eqn:Ex; [|discriminate]. rewrite (IHa _ _ _ Ex). destruct x; auto.
  - unfold bind. destruct (eval_cexp true _ a r g) as [y|] eqn:Ex; [|discriminate]. rewrite (IHa _ _ _ Ex). destruct y; auto.
  - unfold bind. destruct (eval_cexp true _ c r g) as [y|] eqn:Ex; [|discriminate]. rewrite (IHc _ _ _ Ex). destruct y as [v h|v h|k]; auto. destruct v as [| |b0| | | | | | | | | | |]; auto. destruct b0; auto.
Qed.
Theorem C74_strict_is_reference : forall {HS} {CH : chain HS} ds a vs (g : HS) rs, run_conv true ds a vs g = Some rs -> run_conv false ds a vs g = Some rs.
Proof.
  intros HS CH ds a vs g rs H. unfold run_conv, as_fun in *. destruct (eval_cexp true _ _ _ g) as [x|] eqn:Ex; [|discriminate].
  rewrite (eval_cexp_strict _ _ _ _ _ Ex). exact H.
Qed.
Print Assumptions C74_strict_is_reference.

(** ** What the compiled function does *)
Section Compiled.
Context {HS : Type} {CH : chain HS} (E : env HS) (HE : has_std E).
Context (sig : list (string * fsig)) (rt : ty) (L : list (ty * value * Z)) (X : Z) (HX0 : 0 <= X) (funs : string -> list value -> M HS value) (Hhost : host_ok E).
Context (Hcap : chain_cap (HS := HS) + 4 < m32) (Hlow : exists b, In (TBuff 1, CBuff [b], 3) L).
Context (Hfuns : forall f ts tr, assoc f sig = Some (ts, tr) -> fun_ok E L X funs f ts tr).
Lemma cexp_ok s : forall G, wt_cexp sig rt G s = true -> incl (cexp_lits s) L ->
  impl E rt L X G (cexp_ty s) (cexp_frame sig s) (comp_cexp sig rt s) (eval_cexp true funs s).
Proof.
  induction s as [e|w a IHa|x a IHa b IHb|c IHc a IHa b IHb]; intros G Hw HL; cbn [wt_cexp cexp_lits cexp_ty cexp_frame comp_cexp eval_cexp] in *;
    repeat match goal with H : _ && _ = true |- _ => apply andb_prop in H as (? & ?) end.
  - exact (expr_ok E HE sig rt L X HX0 funs Hhost Hfuns e G Hw HL).
  - match goal with H : takes _ _ = true |- _ => rename H into Hp end.
    assert (IH : impl E rt L X G (cexp_ty a) (cexp_frame sig a) (comp_cexp sig rt a) (eval_cexp true funs a)) by (apply IHa; auto).
    destruct w; rewrite ?Z.add_0_r.
    + apply (parse_ok E HE rt L X true); [destruct (cexp_ty a); try discriminate; exact I|exact IH].
    + apply (parse_ok E HE rt L X false); [destruct (cexp_ty a); try discriminate; exact I|exact IH].
    + apply (text_ok E HE rt L X HX0 Hcap Hlow false); [destruct (cexp_ty a); try discriminate; exact I|exact IH].
    + apply (text_ok E HE rt L X HX0 Hcap Hlow true); [destruct (cexp_ty a); try discriminate; exact I|exact IH].
  - eapply let_ok; [apply IHa|apply IHb]; auto; [eapply incl_app_l; eauto|eapply incl_app_r'; eauto].
  - destruct (ty_eq_dec (cexp_ty c) TBool) as [Hc|]; [|discriminate]. destruct (ty_eq_dec (cexp_ty b) (cexp_ty a)) as [Hb|]; [|discriminate].
    pose proof (incl_app_l _ _ _ HL) as L1. pose proof (incl_app_r' _ _ _ HL) as L2. pose proof (incl_app_l _ _ _ L2) as L3. pose proof (incl_app_r' _ _ _ L2) as L4.
    apply if_ok; [rewrite <- Hc; apply IHc|apply IHa|rewrite <- Hb; apply IHb]; auto.
Qed.
End Compiled.
Lemma low_byte m sp : 4 <= sp -> sp <= msize m < 2 ^ 32 -> held m (vis (fun _ => True) sp) (TBuff 1, CBuff [rd m 3], 3).
Proof.
  intros H1 H2. pose proof (Z.mod_pos_bound (mdata m 3) 256 ltac:(lia)) as Hb. split.
  - cbn [has_type]. split; [cbn; lia|]. repeat constructor; unfold rd; lia.
  - cbn [rep lit_len]. exists 3. split; [reflexivity|]. split; [lia|]. split; [cbn; lia|]. split.
    + split; [lia|]. split; [cbn [length]; lia|]. reflexivity.
    + intros x Hx. cbn [length] in Hx. split; [lia|exact I].
Qed.

Theorem C74_compiled_conversions : forall {HS} {CH : chain HS} host ds f a vs ws (st : store HS) sp rs,
  conv_module ds f a -> host_ok (conv_env host ds f a) -> conv_ready (conv_room ds a) ds a st sp ->
  Forall2 has_type (map snd (cf_params a)) vs -> rep_list (smem st) (fun a => a < sp) (map snd (cf_params a)) vs ws ->
  run_conv true ds a vs (shost st) = Some rs -> behaves (conv_env host ds f a) f ws st sp (cf_ret a) rs.
Proof.
  intros HS CH host ds f a vs ws st sp rs [M1 M2 M3 M4 M5] Hhost [R1 R2 R3 R4 (R5 & R5') R6] Hty Hrep Hrs.
  set (E := conv_env host ds f a) in *. set (LL := (TBuff 1, CBuff [rd (smem st) 3], 3) :: cexp_lits (cf_body a) ++ prog_lits ds) in *.
  assert (HE : has_std E) by (split; [|reflexivity]; intros n g Hg; unfold E, conv_env; cbn [efun]; rewrite Hg; reflexivity).
  assert (HL1 : incl (cexp_lits (cf_body a)) LL) by (intros x Hx; right; apply in_or_app; auto).
  assert (HL2 : incl (prog_lits ds) LL) by (intros x Hx; right; apply in_or_app; auto).
  assert (HF : forall n fn, assoc n (compile_defs ds) = Some fn -> efun E n = Some fn).
  { intros n fn Hn. unfold E, conv_env. cbn [efun]. rewrite (defs_own _ M4 _ _ Hn). cbn [assoc]. destruct (String.eqb_spec f n) as [->|]; [|exact Hn]. exfalso.
    assert (K : has_key n (map (fun d => (fd_name d, fd_ret d)) ds) = true).
    { revert Hn. clear. unfold has_key. induction ds as [|d ds IH]; cbn [compile_defs map assoc]; [discriminate|]. destruct (String.eqb (fd_name d) n); auto. }
    congruence. }
  destruct (prog_ok E HE Hhost LL ds M1 HL2 HF) as (F0 & P1).
  pose proof (cexp_ok E HE (prog_sig ds) (cf_ret a) LL (frames ds) F0 _ Hhost R5' (ex_intro _ _ (or_introl eq_refl)) P1 (cf_body a) (cf_params a) M3 HL1) as HI.
  assert (Hfr : 0 <= cexp_frame (prog_sig ds) (cf_body a)) by exact (impl_fr E _ _ _ _ _ _ _ _ HI).
  assert (Hfn : efun E f = Some (define_conv ds a)) by (unfold E, conv_env; cbn [efun assoc]; rewrite M5, String.eqb_refl; reflexivity).
  destruct (body_ok E LL (frames ds) f _ _ _ _ _ F0 HI Hfn (fun _ vs h => run_conv true ds a vs h) (fun _ _ => eq_refl)) as (_ & K).
  assert (Hvis : forall a, a < sp -> vis (fun _ => True) sp a) by (intros x Hx; split; auto).
  unfold conv_room in R4.
  assert (HL : Forall (held (smem st) (vis (fun _ => True) sp)) LL).
  { constructor; [apply low_byte; lia|]. eapply Forall_impl; [|exact R6]. intros x. apply held_frame; auto. }
  assert (HA : rep_list (smem st) (vis (fun _ => True) sp) (map snd (cf_params a)) vs ws) by (eapply rep_list_frame; [| | |exact Hrep]; auto).
  specialize (K vs ws st sp (fun _ => True) rs R1 R2 ltac:(lia) (fun _ _ => I) HL). change m32 with (2 ^ 32) in K. specialize (K R4 R5 HA Hty Hrs). destruct K as (f0 & r & H1 & H2).
  destruct rs as [v h|v h|c]; [|contradiction|].
  - destruct H2 as (ws' & st' & -> & (Hb1 & Hb2) & Hg & Hh & Hr & Hv). exists ws', st'. split; [exists f0; exact H1|]. split; [exact Hr|]. split; [exact Hv|]. split; [exact Hh|]. split; [exact Hg|]. split; [exact Hb1|exact Hb2].
  - destruct H2 as [(st' & -> & Hg)|(st' & -> & Hg)]; [left|right]; exists st'; (split; [exists f0; exact H1|exact Hg]).
Qed.
Print Assumptions C74_compiled_conversions.

(** ** Concrete programs *)
#[export] Instance small_unit : chain unit := mkchain unit (fun _ _ _ => None) (2 ^ 32 - 65536) (fun _ _ => None) (fun _ _ _ => None).
Lemma small_host (E : env unit) : host_ok (CH := small_unit) E.
Proof. split; [intros p _ vs st rs H; discriminate|]. split; [intros s st h H; discriminate|intros s b st h H; discriminate]. Qed.
Definition no_imports : string -> option (list vt * (list val -> store unit -> result unit)) := fun _ => None.
(** [(string-to-int? (int-to-utf8 n))] *)
Definition there_and_back : conv_fun := mkconvfun [("n", TInt)] (XConv StringToInt (XConv IntToUtf8 (XExpr (EVar TInt "n")))).
(** [(string-to-uint? "99...95")], [(string-to-int? s)] *)
Definition read_nines : conv_fun := mkconvfun [] (XConv StringToUint (XExpr (EBytes (TAscii 39) (CAscii nines) 100))).
Definition read_arg : conv_fun := mkconvfun [("s", TAscii 10)] (XConv StringToInt (XExpr (EVar (TAscii 10) "s"))).
Definition st74 (sp : Z) : store unit := mkstore (write_bytes (blank 65536) 100 nines) [("stack-pointer", VI32 sp); ("runtime-error-code", VI32 0)] tt.
Lemma module74 a : a = there_and_back \/ a = read_nines \/ a = read_arg -> conv_module [] "f" a.
Proof. intros [-> | [-> | ->]]; split; try reflexivity; intros d []. Qed.
Lemma ready74 a sp : a = there_and_back \/ a = read_nines \/ a = read_arg -> 200 <= sp -> sp + conv_room [] a <= 65536 -> conv_ready (conv_room [] a) [] a (st74 sp) sp.
Proof.
  intros Ha H1 H2. split; [reflexivity|eexists; reflexivity|lia|change (msize (smem (st74 sp))) with 65536; lia|split; vm_compute; [discriminate|reflexivity]|].
  destruct Ha as [-> | [-> | ->]]; cbn; repeat apply Forall_cons; try apply Forall_nil.
  split; [match goal with |- has_type ?t ?v => assert (K : (if has_type_dec t v then true else false) = true) by (vm_compute; reflexivity); destruct (has_type_dec t v); [assumption|discriminate] end|].
  cbn [lit_len rep]; unfold rep_bytes; eexists; (split; [reflexivity|]); (split; [lia|]); (split; [vm_compute; reflexivity|]).
  split; [split; [lia|]; split; [split; vm_compute; discriminate|vm_compute; reflexivity]|]. intros x Hx. cbn in Hx. lia.
Qed.
Lemma rep_int m P n : is_i128 n -> rep_list m P [TInt] [CInt n] (i128 n).
Proof. intros Hn. rewrite <- (app_nil_r (i128 n)). constructor; [|constructor]. cbn [rep]. rewrite LangArith.i128_nws. reflexivity. Qed.
(** printing and reading compiled together: every integer survives *)
Theorem C74_there_and_back : forall n sp, is_i128 n -> 200 <= sp -> sp + 160 <= 65536 ->
  behaves (conv_env no_imports [] "f" there_and_back) "f" (i128 n) (st74 sp) sp (TOpt TInt) (Done (CSome (CInt n)) tt).
Proof.
  intros n sp Hn H1 H2.
  apply (C74_compiled_conversions no_imports [] "f" there_and_back [CInt n]); [apply module74; auto|apply small_host|apply ready74; auto|repeat constructor; apply Hn|apply rep_int; exact Hn|].
  destruct (C74_reading_back true n tt IntToUtf8 (or_intror eq_refl)) as (K & _). specialize (K Hn).
  unfold run_conv, as_fun. change (combine (map fst (cf_params there_and_back)) [CInt n]) with [("n", CInt n)].
  assert (K' : eval_cexp true (run_defs true []) (cf_body there_and_back) [("n", CInt n)] tt = Some (Done (CSome (CInt n)) tt)) by exact K.
  change (shost (st74 sp)) with tt. rewrite K'. reflexivity.
Qed.
Print Assumptions C74_there_and_back.
Example C74_ex_run : match invoke (conv_env no_imports [] "f" there_and_back) 400 "f" (i128 (-905)) (st74 400) with
  | RVals ws st' => ws = VI32 1 :: i128 (-905) | _ => False end.
Proof. vm_compute. reflexivity. Qed.
Example C74_ex_text : text (-905) = [45; 57; 48; 53] /\ text 0 = [48] /\ run_conv true [] there_and_back [CInt (-905)] tt = Some (Done (CSome (CInt (-905))) tt).
Proof. vm_compute. auto. Qed.

(** What the strict meaning leaves out goes wrong. 999...95 (39 digits) is no uint, but the
    compiled program reads it as [some] of the largest one. *)
Theorem C74_wraps_refuted : forall sp, sp = 400 ->
  conv_module [] "f" read_nines /\ conv_ready (conv_room [] read_nines) [] read_nines (st74 sp) sp /\
  run_conv false [] read_nines [] tt = Some (Done CNone tt) /\ run_conv true [] read_nines [] tt = None /\
  exists st', calls (conv_env no_imports [] "f" read_nines) "f" [] (st74 sp) (RVals (VI32 1 :: u128 (2 ^ 128 - 1)) st').
Proof.
  intros sp ->. split; [apply module74; auto|]. split; [apply ready74; [auto|lia|vm_compute; discriminate]|]. split; [vm_compute; reflexivity|]. split; [vm_compute; reflexivity|].
  assert (HH : match invoke (conv_env no_imports [] "f" read_nines) 400 "f" [] (st74 400) with RVals [VI32 1; VI64 a; VI64 b] _ => (a =? 2 ^ 64 - 1) && (b =? 2 ^ 64 - 1) | _ => false end = true) by (vm_compute; reflexivity).
  destruct (invoke (conv_env no_imports [] "f" read_nines) 400 "f" [] (st74 400)) as [ws st'| | |] eqn:Hr; try discriminate HH. exists st'. apply (calls_compute _ 400); [|discriminate]. rewrite Hr. f_equal.
  clear Hr. repeat match type of HH with match ?x with _ => _ end = true => destruct x; try discriminate HH end.
  apply andb_prop in HH as (H1 & H2). apply Z.eqb_eq in H1. apply Z.eqb_eq in H2. subst. reflexivity.
Qed.
Print Assumptions C74_wraps_refuted.
(** [string-to-int?] of an empty string that is the last thing in memory stops instead of
    answering [none]: the sign is looked for before the length. *)
Theorem C74_empty_string_refuted : forall sp, sp = 65536 ->
  conv_module [] "f" read_arg /\ conv_ready (conv_room [] read_arg) [] read_arg (st74 sp) sp /\
  rep_list (smem (st74 sp)) (fun a => a < sp) [TAscii 10] [CAscii []] [VI32 65536; VI32 0] /\
  run_conv false [] read_arg [CAscii []] tt = Some (Done CNone tt) /\
  exists st', calls (conv_env no_imports [] "f" read_arg) "f" [VI32 65536; VI32 0] (st74 sp) (RTrap TMem st').
Proof.
  intros sp ->. split; [apply module74; auto|]. split; [apply ready74; [auto|lia|vm_compute; discriminate]|].
  split. { change [VI32 65536; VI32 0] with ([VI32 65536; VI32 0] ++ []). constructor; [|constructor]. exists 65536. split; [reflexivity|]. split; [lia|]. split; [vm_compute; reflexivity|]. split; [|intros x Hx; cbn in Hx; lia].
    split; [lia|]. split; [split; vm_compute; discriminate|reflexivity]. }
  split; [vm_compute; reflexivity|].
  assert (HH : match invoke (conv_env no_imports [] "f" read_arg) 400 "f" [VI32 65536; VI32 0] (st74 65536) with RTrap TMem _ => true | _ => false end = true) by (vm_compute; reflexivity).
  destruct (invoke (conv_env no_imports [] "f" read_arg) 400 "f" [VI32 65536; VI32 0] (st74 65536)) as [|k st'| |] eqn:Hr; try discriminate HH. destruct k; try discriminate HH.
  exists st'. apply (calls_compute _ 400); [exact Hr|discriminate].
Qed.
Print Assumptions C74_empty_string_refuted.
