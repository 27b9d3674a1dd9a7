(** * C73: principals are taken apart, put together and checked as Clarity says *)
From Coq Require Import ZArith String List Bool Lia.
Import ListNotations.
From Verif Require Import Wasm Std StdEnv WasmLogic WasmTac Spec Mem MemFacts Bytes SpecBytes SpecUtf8 Clar Codec Emit Rep RepFacts WriteProofs ArgProofs
  Ledger LedgerProofs PropLedger PropStore NameProofs PropNames Ast SpecLang Lang Typing LangFacts LangBase LangCtl LangMem LangSeq LangCall LangPrim LangMain LangPlain PropLang SpecChain ConstProofs PropCodec SpecPrincipal Principal.
Open Scope string_scope.
Open Scope list_scope.
Open Scope Z_scope.

(** ** Meaning *)
(** [is-standard] tells exactly whether [principal-destruct?] answers [ok], and both parts
    of the answer are the same tuple *)
Theorem C73_standard_iff_destruct_ok : forall mainnet p,
  (is_standard mainnet p = true <-> destruct_principal mainnet p = COk (parts p)) /\
  (is_standard mainnet p = false <-> destruct_principal mainnet p = CErr (parts p)).
Proof. intros mn p. unfold destruct_principal. destruct (is_standard mn p); split; split; intros H; congruence. Qed.
Print Assumptions C73_standard_iff_destruct_ok.
(** What was taken apart can be put together again: on the network of the principal's version
    [ok] of it, on the other one an error with code 0 that carries it. *)
Theorem C73_construct_of_parts : forall mainnet p, prin_ok p ->
  construct_principal mainnet [version_of p] (hash_of p) (name_of p) =
  if is_standard mainnet p then COk (CPrin p) else complaint 0 (Some p).
Proof.
  intros mn p Hp. assert (Hs : prin_std_ok (version_of p) (hash_of p)) by (destruct p; cbn [prin_ok] in Hp; tauto). destruct Hs as (Hv & Hl & _).
  unfold construct_principal. rewrite (proj2 (Z.ltb_lt _ _)) by lia. rewrite Hl. cbn [Nat.eqb andb].
  assert (Hn : name_fine (name_of p) = true).
  { destruct p as [v h|v h n]; [reflexivity|]. cbn [name_of name_fine]. destruct (contract_name_dec n); [reflexivity|]. cbn [prin_ok] in Hp. tauto. }
  rewrite Hn. replace (principal (version_of p) (hash_of p) (name_of p)) with p by (destruct p; reflexivity). reflexivity.
Qed.
Print Assumptions C73_construct_of_parts.
(** ... and conversely *)
Theorem C73_parts_of_construct : forall mainnet v h n p, construct_principal mainnet v h n = COk (CPrin p) \/ construct_principal mainnet v h n = complaint 0 (Some p) ->
  v = [version_of p] /\ h = hash_of p /\ n = name_of p /\ (is_standard mainnet p = true <-> construct_principal mainnet v h n = COk (CPrin p)).
Proof.
  intros mn v h n p. unfold construct_principal. destruct v as [|b [|b' v]]; try (intros [H|H]; discriminate H).
  destruct ((b <? 32) && (length h =? 20)%nat); [|intros [H|H]; discriminate H]. destruct (name_fine n); [|intros [H|H]; discriminate H].
  assert (K : forall p, principal b h n = p -> [b] = [version_of p] /\ h = hash_of p /\ n = name_of p /\ is_standard mn p = on_network mn b) by (intros q <-; destruct n; auto).
  destruct (on_network mn b) eqn:En; intros [H|H]; try discriminate H; injection H as H; destruct (K _ H) as (K1 & K2 & K3 & K4); (split; [exact K1|split; [exact K2|split; [exact K3|]]]); rewrite K4.
  - split; [congruence|reflexivity].
  - split; [discriminate|]. intros D. discriminate D.
Qed.
Print Assumptions C73_parts_of_construct.
(** every error of [principal-construct?] has its reason *)
Theorem C73_construct_answers : forall mainnet v h n, (length v <= 1)%nat -> (length h <= 20)%nat ->
  (construct_principal mainnet v h n = complaint 1 None <-> v = [] \/ 32 <= hd 0 v \/ (length h < 20)%nat) /\
  (construct_principal mainnet v h n = complaint 2 None <-> (v <> [] /\ hd 0 v < 32 /\ length h = 20%nat) /\ exists s, n = Some s /\ ~ contract_name s).
Proof.
  intros mn v h n Hv Hh. unfold construct_principal. destruct v as [|b [|b' v]]; [|cbn [hd]|cbn in Hv; lia].
  { split; [split; auto|split; [discriminate|intros ((H & _) & _); congruence]]. }
  destruct (Z.ltb_spec b 32) as [Hb|Hb]; cbn [andb].
  - destruct (Nat.eqb_spec (length h) 20) as [Hl|Hl].
    + assert (K : name_fine n = false <-> exists s, n = Some s /\ ~ contract_name s).
      { unfold name_fine. destruct n as [s|]; [|split; [discriminate|intros (s & H & _); discriminate]]. destruct (contract_name_dec s); (split; [|]).
        - discriminate. - intros (s' & H & H'). injection H as <-. contradiction. - eauto. - reflexivity. }
      destruct (name_fine n).
      * assert (~ exists s, n = Some s /\ ~ contract_name s) by (rewrite <- K; discriminate).
        destruct (on_network mn b); (split; (split; [discriminate|])); try (intros [H0|[H0|H0]]; [discriminate|lia|lia]); tauto.
      * split; [split; [discriminate|intros [H0|[H0|H0]]; [discriminate|lia|lia]]|]. split; [|reflexivity]. intros _. split; [split; [discriminate|auto]|apply K; reflexivity].
    + split; [split; [intros _; right; right; lia|reflexivity]|]. split; [discriminate|]. intros ((_ & _ & H) & _). lia.
  - split; [split; [auto|reflexivity]|]. split; [discriminate|]. intros ((_ & H & _) & _). lia.
Qed.
Print Assumptions C73_construct_answers.

(** ** The module: the program [ds] and a function with these words *)
Record prin_fun := mkprinfun { gf_params : list (string * ty); gf_body : pexp }.
Definition gf_ret (a : prin_fun) : ty := pexp_ty (gf_body a).
Definition define_prin (ds : list fundef) (a : prin_fun) : func := define_body (gf_params a) (gf_ret a) (comp_pexp (prog_sig ds) (gf_ret a) (gf_body a)).
Definition prin_env {HS} (host : string -> option (list vt * (list val -> store HS -> result HS))) (ds : list fundef) (f : string) (a : prin_fun) : env HS :=
  mkenv (fun n => match assoc n std_funs with Some g => Some g | None => assoc n ((f, define_prin ds a) :: compile_defs ds) end) host std_table.
(** the type checker's rules for these words: a principal; a (buff 1), a (buff 20) and a
    (string-ascii 40) at most *)
Definition buff_upto (n : Z) (t : ty) : bool := match t with TBuff k => k <=? n | _ => false end.
Definition ascii_upto (n : Z) (t : ty) : bool := match t with TAscii k => k <=? n | _ => false end.
Definition is_prin (t : ty) : bool := match t with TPrin => true | _ => false end.
Fixpoint wt_pexp (S : list (string * fsig)) (rt : ty) (G : tenv) (s : pexp) : bool :=
  match s with
  | GExpr e => wt S rt G e
  | GStandard a | GDestruct a => is_prin (pexp_ty a) && wt_pexp S rt G a
  | GConstruct v h => buff_upto 1 (pexp_ty v) && buff_upto 20 (pexp_ty h) && wt_pexp S rt G v && wt_pexp S rt G h
  | GConstructC v h n => buff_upto 1 (pexp_ty v) && buff_upto 20 (pexp_ty h) && ascii_upto 40 (pexp_ty n) && wt_pexp S rt G v && wt_pexp S rt G h && wt_pexp S rt G n
  | GLet x a b => wt_pexp S rt G a && wt_pexp S rt ((x, pexp_ty a) :: G) b
  | GIf c a b => wt_pexp S rt G c && wt_pexp S rt G a && wt_pexp S rt G b &&
      (if ty_eq_dec (pexp_ty c) TBool then true else false) && (if ty_eq_dec (pexp_ty b) (pexp_ty a) then true else false)
  end.
Fixpoint pexp_lits (s : pexp) : list (ty * value * Z) :=
  match s with
  | GExpr e => lits e
  | GStandard a | GDestruct a => pexp_lits a
  | GConstruct a b | GLet _ a b => pexp_lits a ++ pexp_lits b
  | GConstructC a b c | GIf a b c => pexp_lits a ++ pexp_lits b ++ pexp_lits c
  end.
(** the call stack space the generator asks for ([spare] is 0); what the code may touch
    ([spare] is 5, for the 16 bytes read at an 11-byte contract name) *)
Fixpoint pexp_frame (spare : Z) (S : list (string * fsig)) (s : pexp) : Z :=
  match s with
  | GExpr e => Lang.frame S e
  | GStandard a | GDestruct a => pexp_frame spare S a
  | GConstruct v h => 150 + pexp_frame spare S v + pexp_frame spare S h + 0
  | GConstructC v h n => 150 + pexp_frame spare S v + pexp_frame spare S h + (pexp_frame spare S n + spare)
  | GLet _ a b => pexp_frame spare S a + pexp_frame spare S b
  | GIf c a b => pexp_frame spare S c + pexp_frame spare S a + pexp_frame spare S b
  end.
Definition prin_room (spare : Z) (ds : list fundef) (a : prin_fun) : Z := pexp_frame spare (prog_sig ds) (gf_body a) + frames ds.

Record prin_module {HS} (mainnet : bool) (host : string -> option (list vt * (list val -> store HS -> result HS))) (ds : list fundef) (f : string) (a : prin_fun) : Prop := {
  gm_prog : wt_prog ds = true;
  gm_new : has_key f (map (fun d => (fd_name d, fd_ret d)) ds) = false;
  gm_typed : wt_pexp (prog_sig ds) (gf_ret a) (gf_params a) (gf_body a) = true;
  gm_own : own_names ds;
  gm_name : assoc f std_funs = None;
  gm_net : host_says (prin_env host ds f a) mainnet }.
Record prin_ready {HS} {CH : chain HS} (room : Z) (ds : list fundef) (a : prin_fun) (st : store HS) (sp : Z) : Prop := {
  gr_sp : gget (sglob st) "stack-pointer" = Some (VI32 sp);
  gr_err : exists w, gget (sglob st) "runtime-error-code" = Some w;
  gr_pos : 0 <= sp;
  gr_room : sp + room <= msize (smem st) < 2 ^ 32;
  gr_cap : msize (smem st) <= chain_cap (HS := HS);
  gr_lits : Forall (held (smem st) (fun a => a < sp)) (pexp_lits (gf_body a) ++ prog_lits ds) }.
Definition run_prin {HS} {CH : chain HS} (mainnet strict : bool) (ds : list fundef) (a : prin_fun) (vs : list value) (g : HS) : option (res HS value) :=
  as_fun (eval_pexp mainnet strict (run_defs strict ds) (gf_body a) (combine (map fst (gf_params a)) vs)) g.

(** a strict result is the reference result *)
Lemma eval_pexp_strict {HS} {CH : chain HS} mn ds s : forall r (g : HS) rs, eval_pexp mn true (run_defs true ds) s r g = Some rs -> eval_pexp mn false (run_defs false ds) s r g = Some rs.
Proof.
  assert (DD : forall v (g : HS) rs, do_destruct mn true v g = Some rs -> do_destruct mn false v g = Some rs).
  { intros v g rs. unfold do_destruct. destruct v; auto. cbn [negb orb]. destruct (short_name p); [auto|discriminate]. }
  induction s as [e|a IHa|a IHa|a IHa b IHb|a IHa b IHb c IHc|x a IHa b IHb|c IHc a IHa b IHb]; intros r g rs; cbn [eval_pexp].
  - intros H. exact (eval_strict _ _ (run_strict ds) e r g _ H).
  - unfold bind. destruct (eval_pexp mn true _ a r g) as [x|] eqn:Ex; [|discriminate]. rewrite (IHa _ _ _ Ex). auto.
  - unfold bind. destruct (eval_pexp mn true _ a r g) as [x|] eqn:Ex; [|discriminate]. rewrite (IHa _ _ _ Ex). destruct x; auto.
  - unfold bind. destruct (eval_pexp mn true _ a r g) as [x|] eqn:Ex; [|discriminate]. rewrite (IHa _ _ _ Ex). destruct x as [v h|v h|k]; auto.
    destruct (eval_pexp mn true _ b r h) as [y|] eqn:Ey; [|discriminate]. rewrite (IHb _ _ _ Ey). auto.
  - unfold bind. destruct (eval_pexp mn true _ a r g) as [x|] eqn:Ex; [|discriminate]. rewrite (IHa _ _ _ Ex). destruct x as [v h|v h|k]; auto.
    destruct (eval_pexp mn true _ b r h) as [y|] eqn:Ey; [|discriminate]. rewrite (IHb _ _ _ Ey). destruct y as [v2 h2|v2 h2|k2]; auto.
    destruct (eval_pexp mn true _ c r h2) as [z|] eqn:Ez; [|discriminate]. rewrite (IHc _ _ _ Ez). auto.
  - unfold bind. destruct (eval_pexp mn true _ a r g) as [y|] eqn:Ex; [|discriminate]. rewrite (IHa _ _ _ Ex). destruct y; auto.
  - unfold bind. destruct (eval_pexp mn true _ c r g) as [y|] eqn:Ex; [|discriminate]. rewrite (IHc _ _ _ Ex). destruct y as [v h|v h|k]; auto. destruct v as [| |b0| | | | | | | | | | |]; auto. destruct b0; auto.
Qed.
Theorem C73_strict_is_reference : forall {HS} {CH : chain HS} mainnet ds a vs (g : HS) rs, run_prin mainnet true ds a vs g = Some rs -> run_prin mainnet false ds a vs g = Some rs.
Proof.
  intros HS CH mn ds a vs g rs H. unfold run_prin, as_fun in *. destruct (eval_pexp mn true _ _ _ g) as [x|] eqn:Ex; [|discriminate].
  rewrite (eval_pexp_strict _ _ _ _ _ _ Ex). exact H.
Qed.
Print Assumptions C73_strict_is_reference.

(** ** What the compiled function does *)
Section Compiled.
Context {HS : Type} {CH : chain HS} (E : env HS) (HE : has_std E) (mn : bool) (HN : host_says E mn).
Context (sig : list (string * fsig)) (rt : ty) (L : list (ty * value * Z)) (X : Z) (HX0 : 0 <= X) (funs : string -> list value -> M HS value) (Hhost : host_ok E).
Context (Hfuns : forall f ts tr, assoc f sig = Some (ts, tr) -> fun_ok E L X funs f ts tr).
Lemma pexp_ok s : forall G, wt_pexp sig rt G s = true -> incl (pexp_lits s) L ->
  impl E rt L X G (pexp_ty s) (pexp_frame 5 sig s) (comp_pexp sig rt s) (eval_pexp mn true funs s).
Proof.
  assert (PT : forall t, is_prin t = true -> t = TPrin) by (intros t; destruct t; try discriminate; reflexivity).
  assert (BT : forall n t, buff_upto n t = true -> exists k, t = TBuff k /\ k <= n) by (intros n t; destruct t; try discriminate; cbn [buff_upto]; intros H; apply Z.leb_le in H; eauto).
  assert (AT : forall n t, ascii_upto n t = true -> exists k, t = TAscii k /\ k <= n) by (intros n t; destruct t; try discriminate; cbn [ascii_upto]; intros H; apply Z.leb_le in H; eauto).
  induction s as [e|a IHa|a IHa|a IHa b IHb|a IHa b IHb c IHc|x a IHa b IHb|c IHc a IHa b IHb]; intros G Hw HL; cbn [wt_pexp pexp_lits pexp_ty pexp_frame comp_pexp eval_pexp] in *;
    repeat match goal with H : _ && _ = true |- _ => apply andb_prop in H as (? & ?) end.
  - exact (expr_ok E HE sig rt L X HX0 funs Hhost Hfuns e G Hw HL).
  - match goal with H : is_prin _ = true |- _ => rename H into Hp end. apply PT in Hp. apply (standard_ok E mn HN rt L X). rewrite <- Hp. apply IHa; auto.
  - match goal with H : is_prin _ = true |- _ => rename H into Hp end. apply PT in Hp. apply (destruct_ok E HE mn HN rt L X). rewrite <- Hp. apply IHa; auto.
  - destruct (BT 1 (pexp_ty a)) as (kv & Ea & Hkv); [assumption|]. destruct (BT 20 (pexp_ty b)) as (kh & Eb & Hkh); [assumption|].
    rewrite Ea in IHa. rewrite Eb in IHb.
    apply (construct_ok E HE mn HN rt L X HX0 G kv kh _ _ (comp_pexp sig rt a) (comp_pexp sig rt b) _ _ None); auto; [apply IHa|apply IHb]; auto; [eapply incl_app_l; eauto|eapply incl_app_r'; eauto].
  - destruct (BT 1 (pexp_ty a)) as (kv & Ea & Hkv); [assumption|]. destruct (BT 20 (pexp_ty b)) as (kh & Eb & Hkh); [assumption|]. destruct (AT 40 (pexp_ty c)) as (kn & Ec & Hkn); [assumption|].
    rewrite Ea in IHa. rewrite Eb in IHb. rewrite Ec in IHc.
    pose proof (incl_app_l _ _ _ HL) as L1. pose proof (incl_app_r' _ _ _ HL) as L2. pose proof (incl_app_l _ _ _ L2) as L3. pose proof (incl_app_r' _ _ _ L2) as L4.
    apply (construct_ok E HE mn HN rt L X HX0 G kv kh _ _ (comp_pexp sig rt a) (comp_pexp sig rt b) _ _ (Some (comp_pexp sig rt c, eval_pexp mn true funs c, pexp_frame 5 sig c, kn))); auto.
  - eapply let_ok; [apply IHa|apply IHb]; auto; [eapply incl_app_l; eauto|eapply incl_app_r'; eauto].
  - destruct (ty_eq_dec (pexp_ty c) TBool) as [Hc|]; [|discriminate]. destruct (ty_eq_dec (pexp_ty b) (pexp_ty a)) as [Hb|]; [|discriminate].
    pose proof (incl_app_l _ _ _ HL) as L1. pose proof (incl_app_r' _ _ _ HL) as L2. pose proof (incl_app_l _ _ _ L2) as L3. pose proof (incl_app_r' _ _ _ L2) as L4.
    apply if_ok; [rewrite <- Hc; apply IHc|apply IHa|rewrite <- Hb; apply IHb]; auto.
Qed.
End Compiled.

Theorem C73_compiled_principals : forall {HS} {CH : chain HS} mainnet host ds f a vs ws (st : store HS) sp rs,
  prin_module mainnet host ds f a -> host_ok (prin_env host ds f a) -> prin_ready (prin_room 5 ds a) ds a st sp ->
  Forall2 has_type (map snd (gf_params a)) vs -> rep_list (smem st) (fun a => a < sp) (map snd (gf_params a)) vs ws ->
  run_prin mainnet true ds a vs (shost st) = Some rs -> behaves (prin_env host ds f a) f ws st sp (gf_ret a) rs.
Proof.
  intros HS CH mn host ds f a vs ws st sp rs [M1 M2 M3 M4 M5 M6] Hhost [R1 R2 R3 R4 R5 R6] Hty Hrep Hrs.
  set (E := prin_env host ds f a) in *. set (LL := pexp_lits (gf_body a) ++ prog_lits ds) in *.
  assert (HE : has_std E) by (split; [|reflexivity]; intros n g Hg; unfold E, prin_env; cbn [efun]; rewrite Hg; reflexivity).
  pose proof (incl_app_l _ _ _ (incl_refl LL)) as HL1. pose proof (incl_app_r' _ _ _ (incl_refl LL)) as HL2.
  assert (HF : forall n fn, assoc n (compile_defs ds) = Some fn -> efun E n = Some fn).
  { intros n fn Hn. unfold E, prin_env. cbn [efun]. rewrite (defs_own _ M4 _ _ Hn). cbn [assoc]. destruct (String.eqb_spec f n) as [->|]; [|exact Hn]. exfalso.
    assert (K : has_key n (map (fun d => (fd_name d, fd_ret d)) ds) = true).
    { revert Hn. clear. unfold has_key. induction ds as [|d ds IH]; cbn [compile_defs map assoc]; [discriminate|]. destruct (String.eqb (fd_name d) n); auto. }
    congruence. }
  destruct (prog_ok E HE Hhost LL ds M1 HL2 HF) as (F0 & P1).
  pose proof (pexp_ok E HE mn M6 (prog_sig ds) (gf_ret a) LL (frames ds) F0 _ Hhost P1 (gf_body a) (gf_params a) M3 HL1) as HI.
  assert (Hfn : efun E f = Some (define_prin ds a)) by (unfold E, prin_env; cbn [efun assoc]; rewrite M5, String.eqb_refl; reflexivity).
  destruct (body_ok E LL (frames ds) f _ _ _ _ _ F0 HI Hfn (fun _ vs h => run_prin mn true ds a vs h) (fun _ _ => eq_refl)) as (_ & K).
  assert (Hvis : forall a, a < sp -> vis (fun _ => True) sp a) by (intros x Hx; split; auto).
  assert (HL : Forall (held (smem st) (vis (fun _ => True) sp)) LL). { eapply Forall_impl; [|exact R6]. intros x. apply held_frame; auto. }
  assert (HA : rep_list (smem st) (vis (fun _ => True) sp) (map snd (gf_params a)) vs ws) by (eapply rep_list_frame; [| | |exact Hrep]; auto).
  specialize (K vs ws st sp (fun _ => True) rs R1 R2 R3 (fun _ _ => I) HL). unfold prin_room in R4. change m32 with (2 ^ 32) in K. specialize (K R4 R5 HA Hty Hrs). destruct K as (f0 & r & H1 & H2).
  destruct rs as [v h|v h|c]; [|contradiction|].
  - destruct H2 as (ws' & st' & -> & (Hb1 & Hb2) & Hg & Hh & Hr & Hv). exists ws', st'. split; [exists f0; exact H1|]. split; [exact Hr|]. split; [exact Hv|]. split; [exact Hh|]. split; [exact Hg|]. split; [exact Hb1|exact Hb2].
  - destruct H2 as [(st' & -> & Hg)|(st' & -> & Hg)]; [left|right]; exists st'; (split; [exists f0; exact H1|exact Hg]).
Qed.
Print Assumptions C73_compiled_principals.

(** ** Concrete programs *)
#[export] Instance just_unit : chain unit := mkchain unit (fun _ _ _ => None) (2 ^ 32) (fun _ _ => None) (fun _ _ _ => None).
Lemma unit_host (E : env unit) : host_ok (CH := just_unit) E.
Proof. split; [intros p _ vs st rs H; discriminate|]. split; [intros s st h H; discriminate|intros s b st h H; discriminate]. Qed.
Definition host73 : string -> option (list vt * (list val -> store unit -> result unit)) :=
  fun n => if String.eqb n "stdlib.is_in_mainnet" then Some ([], fun _ st => RVals (vbool true) st) else None.
Definition hash73 : list Z := map Z.of_nat (seq 1 20).
Definition p73 : prin := PCon 22 hash73 [112; 111; 111; 108].
(** version at 0, hash at 16, names at 48 and 56, the principal at 100 *)
Definition m73 : mem := write_bytes (write_bytes (write_bytes (write_bytes (write_bytes (blank 65536) 0 [22]) 16 hash73) 48 [112; 111; 111; 108]) 56 [45; 115; 116; 97; 98; 108; 101]) 100 (prin_bytes p73).
Definition st73 (sp : Z) : store unit := mkstore m73 [("stack-pointer", VI32 sp); ("runtime-error-code", VI32 0)] tt.
(** [(let ((r (principal-construct? v h (concat "pool" "-stable")))) (if (is-standard p) (principal-destruct? p) (principal-destruct? tx-sender)))] and so on *)
Definition lit_v : pexp := GExpr (EBytes (TBuff 1) (CBuff [22]) 0).
Definition lit_h : pexp := GExpr (EBytes (TBuff 20) (CBuff hash73) 16).
Definition pool : expr := EBytes (TAscii 4) (CAscii [112; 111; 111; 108]) 48.
Definition stable : expr := EBytes (TAscii 7) (CAscii [45; 115; 116; 97; 98; 108; 101]) 56.
Definition build : prin_fun := mkprinfun [] (GConstructC lit_v lit_h (GExpr (EConcat (TAscii 11) pool stable))).
(** the name is "-stablepool" *)
Definition build_bad : prin_fun := mkprinfun [] (GConstructC lit_v lit_h (GExpr (EConcat (TAscii 11) stable pool))).
Definition split73 : prin_fun := mkprinfun [("p", TPrin)] (GLet "d" (GDestruct (GExpr (EVar TPrin "p"))) (GIf (GStandard (GExpr (EVar TPrin "p"))) (GExpr (EVar (TResp parts_ty parts_ty) "d")) (GDestruct (GExpr (EVar TPrin "p"))))).
Lemma module73 a : a = build \/ a = split73 \/ a = build_bad -> prin_module true host73 [] "f" a.
Proof.
  intros Ha. split; try (destruct Ha as [->|[->| ->]]; reflexivity); try (intros d []).
  destruct Ha as [->|[->| ->]]; (split; [reflexivity|]; eexists; split; [reflexivity|]; reflexivity).
Qed.
Lemma ready73 spare a sp : a = build \/ a = split73 \/ a = build_bad -> 400 <= sp -> sp + prin_room spare [] a <= 65536 -> prin_ready (prin_room spare [] a) [] a (st73 sp) sp.
Proof.
  intros Ha H1 H2. split; [reflexivity|eexists; reflexivity|lia|change (msize (smem (st73 sp))) with 65536; lia|vm_compute; discriminate|].
  destruct Ha as [->|[->| ->]]; cbn; repeat apply Forall_cons; try apply Forall_nil;
    (split; [match goal with |- has_type ?t ?v => assert (K : (if has_type_dec t v then true else false) = true) by (vm_compute; reflexivity); destruct (has_type_dec t v); [assumption|discriminate] end|]);
    cbn [lit_len rep]; unfold rep_bytes; eexists; (split; [reflexivity|]); (split; [lia|]); (split; [vm_compute; reflexivity|]);
    (split; [split; [lia|]; split; [split; vm_compute; discriminate|vm_compute; reflexivity]|]); intros x Hx; cbn [length map seq hash73] in Hx; lia.
Qed.
(** the hypotheses are met *)
Example C73_ex_hyps : prin_module true host73 [] "f" build /\ prin_ready (prin_room 5 [] build) [] build (st73 400) 400 /\
  prin_module true host73 [] "f" split73 /\ prin_ready (prin_room 5 [] split73) [] split73 (st73 400) 400 /\
  rep_list m73 (fun a => a < 400) [TPrin] [CPrin p73] ([VI32 100; VI32 26] ++ []) /\
  run_prin true true [] build [] tt = Some (Done (COk (CPrin (PCon 22 hash73 [112; 111; 111; 108; 45; 115; 116; 97; 98; 108; 101]))) tt) /\
  run_prin true true [] split73 [CPrin p73] tt = Some (Done (COk (CTuple [("hash-bytes", CBuff hash73); ("name", CSome (CAscii [112; 111; 111; 108])); ("version", CBuff [22])])) tt) /\
  run_prin false true [] split73 [CPrin p73] tt = Some (Done (CErr (parts p73)) tt).
Proof.
  split; [apply module73; auto|]. split; [apply ready73; [auto|lia|vm_compute; discriminate]|]. split; [apply module73; auto|]. split; [apply ready73; [auto|lia|vm_compute; discriminate]|].
  split. { constructor; [|constructor]. exists 100. split; [reflexivity|]. split; [lia|]. split; [vm_compute; reflexivity|]. split; [split; [lia|]; split; [split; vm_compute; discriminate|vm_compute; reflexivity]|]. intros x Hx. cbn in Hx. lia. }
  repeat split; vm_compute; reflexivity.
Qed.
Example C73_ex_run : match invoke (prin_env host73 [] "f" split73) 300 "f" [VI32 100; VI32 26] (st73 400) with
  | RVals ws st' => ws = [VI32 1; VI32 101; VI32 20; VI32 1; VI32 122; VI32 4; VI32 100; VI32 1; VI32 0; VI32 0; VI32 0; VI32 0; VI32 0; VI32 0; VI32 0]
  | _ => False end.
Proof. vm_compute. reflexivity. Qed.

(** The five bytes matter: with exactly the memory the generator asks for, building a contract
    principal with an 11-byte name that is the last thing in memory and does not start with a
    letter stops, instead of answering that the name is wrong. *)
Theorem C73_name_at_the_end_refuted : forall sp, sp = 65536 - prin_room 0 [] build_bad ->
  prin_module true host73 [] "f" build_bad /\ prin_ready (prin_room 0 [] build_bad) [] build_bad (st73 sp) sp /\
  run_prin true true [] build_bad [] tt = Some (Done (complaint 2 None) tt) /\
  exists st', calls (prin_env host73 [] "f" build_bad) "f" [] (st73 sp) (RTrap TMem st').
Proof.
  intros sp ->. replace (65536 - prin_room 0 [] build_bad) with 65375 by reflexivity.
  split; [apply module73; auto|]. split; [apply (ready73 0 build_bad 65375); [auto|lia|vm_compute; discriminate]|]. split; [vm_compute; reflexivity|].
  assert (HH : match invoke (prin_env host73 [] "f" build_bad) 300 "f" [] (st73 65375) with RTrap TMem _ => true | _ => false end = true) by (vm_compute; reflexivity).
  destruct (invoke (prin_env host73 [] "f" build_bad) 300 "f" [] (st73 65375)) as [|k st'| |] eqn:Hr; try discriminate HH. destruct k; try discriminate HH.
  exists st'. apply (calls_compute _ 300); [exact Hr|discriminate].
Qed.
Print Assumptions C73_name_at_the_end_refuted.
