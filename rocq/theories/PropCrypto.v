(** * C75: signatures are recovered and checked and keys become principals as Clarity says *)
From Coq Require Import ZArith String List Bool Lia.
Import ListNotations.
From Verif Require Import Wasm Std StdEnv WasmLogic WasmTac Spec Mem MemFacts Bytes SpecBytes SpecUtf8 Clar Codec Emit Rep RepFacts WriteProofs ArgProofs
  Ast SpecLang Lang Typing LangFacts LangBase LangCtl LangMem LangSeq LangCall LangPrim LangMain LangPlain PropLang SpecChain ConstProofs PropCodec SpecCrypto Crypto.
Open Scope string_scope.
Open Scope list_scope.
Open Scope Z_scope.

(** ** Meaning *)
(** [secp256k1-recover?]: a message that is not a hash aborts, whatever the signature; a
    signature that is not one is [(err u2)]; one of nobody [(err u1)]; else the key *)
Theorem C75_recover_answers : forall cr m s,
  (recover cr m s = None <-> length m <> 32%nat) /\
  (recover cr m s = Some (CErr (CUInt 2)) <-> length m = 32%nat /\ (length s <> 65%nat \/ 3 < nth 64 s 0)) /\
  (recover cr m s = Some (CErr (CUInt 1)) <-> length m = 32%nat /\ length s = 65%nat /\ nth 64 s 0 <= 3 /\ cr_recover cr m s = None) /\
  (forall k, recover cr m s = Some (COk (CBuff k)) <-> length m = 32%nat /\ length s = 65%nat /\ nth 64 s 0 <= 3 /\ cr_recover cr m s = Some k).
Proof.
  intros cr m s. unfold recover, recoverable. destruct (Nat.eqb_spec (length m) 32) as [Hm|Hm].
  - destruct (Nat.eqb_spec (length s) 65) as [Hs|Hs]; cbn [andb]; [destruct (Z.leb_spec (nth 64 s 0) 3) as [H3|H3]|].
    + destruct (cr_recover cr m s) as [key|]; (split; [|split; [|split; [|intros k]]]); split; intros H; try discriminate H; try congruence; try (destruct H as (_ & [H|H]); [congruence|lia]); try (destruct H as (_ & _ & _ & H); congruence); try tauto.
      injection H as <-. auto.
    + split; [|split; [|split; [|intros k]]]; split; intros H; try discriminate H; try congruence; try (destruct H as (_ & _ & H & _); lia); auto.
    + split; [|split; [|split; [|intros k]]]; split; intros H; try discriminate H; try congruence; try (destruct H as (_ & H & _); congruence); auto.
  - split; [|split; [|split; [|intros k]]]; split; intros H; try discriminate H; try tauto.
Qed.
Print Assumptions C75_recover_answers.
(** [secp256k1-verify]: the message is looked at first, then the signature; only then the key *)
Theorem C75_verify_answers : forall cr m s k,
  (verify cr m s k = None <-> length m <> 32%nat \/ (verifiable s = true /\ length k <> 33%nat)) /\
  (verify cr m s k = Some (CBool true) <-> length m = 32%nat /\ verifiable s = true /\ length k = 33%nat /\ cr_verify cr m s k = true) /\
  (verify cr m s k = Some (CBool false) <-> length m = 32%nat /\ (verifiable s = false \/ (length k = 33%nat /\ cr_verify cr m s k = false))) /\
  (verifiable s = true <-> length s = 64%nat \/ (length s = 65%nat /\ nth 64 s 0 <= 3)).
Proof.
  intros cr m s k. assert (V : verifiable s = true <-> length s = 64%nat \/ (length s = 65%nat /\ nth 64 s 0 <= 3)).
  { unfold verifiable, recoverable. rewrite orb_true_iff, andb_true_iff, !Nat.eqb_eq, Z.leb_le. tauto. }
  unfold verify. destruct (Nat.eqb_spec (length m) 32) as [Hm|Hm].
  - destruct (verifiable s) eqn:Hv; [destruct (Nat.eqb_spec (length k) 33) as [Hk|Hk]; [destruct (cr_verify cr m s k)|]|];
      (split; [|split; [|split; [|exact V]]]); split; intros H; try discriminate H; try tauto; try (destruct H as [H|(H & H')]; congruence); try (destruct H as (_ & [H|(_ & H)]); congruence); try (destruct H as (_ & _ & H & _); congruence); try (destruct H as (_ & _ & _ & H); congruence); try (destruct H as (_ & H & _); congruence); auto.
    destruct H as (_ & [H|(H & _)]); congruence.
  - split; [|split; [|split; [|exact V]]]; split; intros H; try discriminate H; try tauto.
Qed.
Print Assumptions C75_verify_answers.
(** [principal-of?]: 33 bytes that are a key give its principal, a standard one; other 33 bytes
    [(err u1)]; a shorter buffer aborts *)
Theorem C75_principal_of_answers : forall cr k,
  (principal_of cr k = None <-> length k <> 33%nat) /\
  (principal_of cr k = Some (CErr (CUInt 1)) <-> length k = 33%nat /\ cr_address cr k = None) /\
  (forall v h, principal_of cr k = Some (COk (CPrin (PStd v h))) <-> length k = 33%nat /\ cr_address cr k = Some (v, h)) /\
  (forall p, principal_of cr k = Some (COk (CPrin p)) -> exists v h, p = PStd v h).
Proof.
  intros cr k. unfold principal_of. destruct (Nat.eqb_spec (length k) 33) as [Hk|Hk]; [destruct (cr_address cr k) as [[v0 h0]|]|].
  - split; [split; [discriminate|congruence]|]. split; [split; [discriminate|intros (_ & H); congruence]|].
    split; [intros v h; split; [intros H; injection H as -> ->; auto|intros (_ & H); injection H as -> ->; reflexivity]|]. intros p H. injection H as <-. eauto.
  - split; [split; [discriminate|congruence]|]. split; [split; [auto|reflexivity]|]. split; [intros v h; split; [discriminate|intros (_ & H); discriminate]|]. intros p H. discriminate.
  - split; [split; [auto|reflexivity]|]. split; [split; [discriminate|tauto]|]. split; [intros v h; split; [discriminate|tauto]|]. intros p H. discriminate.
Qed.
Print Assumptions C75_principal_of_answers.

(** ** The module: the program [ds] and a function with these words *)
Record crypto_fun := mkcryptofun { kf_params : list (string * ty); kf_body : kexp }.
Definition kf_ret (a : crypto_fun) : ty := kexp_ty (kf_body a).
Definition define_crypto (ds : list fundef) (a : crypto_fun) : func := define_body (kf_params a) (kf_ret a) (comp_kexp (prog_sig ds) (kf_ret a) (kf_body a)).
Definition crypto_env {HS} (host : string -> option (list vt * (list val -> store HS -> result HS))) (ds : list fundef) (f : string) (a : crypto_fun) : env HS :=
  mkenv (fun n => match assoc n std_funs with Some g => Some g | None => assoc n ((f, define_crypto ds a) :: compile_defs ds) end) host std_table.
(** the type checker's rules for these words *)
Definition buff_upto (n : Z) (t : ty) : bool := match t with TBuff k => k <=? n | _ => false end.
Fixpoint wt_kexp (S : list (string * fsig)) (rt : ty) (G : tenv) (s : kexp) : bool :=
  match s with
  | KExpr e => wt S rt G e
  | KRecover m s => buff_upto 32 (kexp_ty m) && buff_upto 65 (kexp_ty s) && wt_kexp S rt G m && wt_kexp S rt G s
  | KVerify m s k => buff_upto 32 (kexp_ty m) && buff_upto 65 (kexp_ty s) && buff_upto 33 (kexp_ty k) && wt_kexp S rt G m && wt_kexp S rt G s && wt_kexp S rt G k
  | KPrincipalOf k => buff_upto 33 (kexp_ty k) && wt_kexp S rt G k
  | KHash _ a => (match kexp_ty a with TInt | TUInt | TBuff _ => true | _ => false end) && wt_kexp S rt G a
  | KLet x a b => wt_kexp S rt G a && wt_kexp S rt ((x, kexp_ty a) :: G) b
  | KIf c a b => wt_kexp S rt G c && wt_kexp S rt G a && wt_kexp S rt G b &&
      (if ty_eq_dec (kexp_ty c) TBool then true else false) && (if ty_eq_dec (kexp_ty b) (kexp_ty a) then true else false)
  end.
Fixpoint kexp_lits (s : kexp) : list (ty * value * Z) :=
  match s with
  | KExpr e => lits e
  | KPrincipalOf a | KHash _ a => kexp_lits a
  | KRecover a b | KLet _ a b => kexp_lits a ++ kexp_lits b
  | KVerify a b c | KIf a b c => kexp_lits a ++ kexp_lits b ++ kexp_lits c
  end.
(** the call stack space the generator asks for *)
Fixpoint kexp_frame (S : list (string * fsig)) (s : kexp) : Z :=
  match s with
  | KExpr e => Lang.frame S e
  | KRecover a b => kexp_frame S a + kexp_frame S b + 89
  | KVerify a b c => kexp_frame S a + kexp_frame S b + kexp_frame S c
  | KPrincipalOf a => kexp_frame S a + 162
  | KHash _ a => kexp_frame S a + bytes_room (kexp_ty a) + 32
  | KLet _ a b => kexp_frame S a + kexp_frame S b
  | KIf c a b => kexp_frame S c + kexp_frame S a + kexp_frame S b
  end.
Definition crypto_room (ds : list fundef) (a : crypto_fun) : Z := kexp_frame (prog_sig ds) (kf_body a) + frames ds.

Record crypto_module {HS} (cr : crypto) (host : string -> option (list vt * (list val -> store HS -> result HS))) (ds : list fundef) (f : string) (a : crypto_fun) : Prop := {
  km_prog : wt_prog ds = true;
  km_new : has_key f (map (fun d => (fd_name d, fd_ret d)) ds) = false;
  km_typed : wt_kexp (prog_sig ds) (kf_ret a) (kf_params a) (kf_body a) = true;
  km_own : own_names ds;
  km_name : assoc f std_funs = None;
  km_host : host_crypto cr (crypto_env host ds f a);
  km_crypto : crypto_ok cr }.
(** [kr_cap]: the host takes addresses for signed numbers *)
Record crypto_ready {HS} {CH : chain HS} (room : Z) (ds : list fundef) (a : crypto_fun) (st : store HS) (sp : Z) : Prop := {
  kr_sp : gget (sglob st) "stack-pointer" = Some (VI32 sp);
  kr_err : exists w, gget (sglob st) "runtime-error-code" = Some w;
  kr_pos : 0 <= sp;
  kr_room : sp + room <= msize (smem st) < 2 ^ 32;
  kr_cap : msize (smem st) <= chain_cap (HS := HS) /\ chain_cap (HS := HS) < 2 ^ 31;
  kr_lits : Forall (held (smem st) (fun a => a < sp)) (kexp_lits (kf_body a) ++ prog_lits ds) }.
Definition run_crypto {HS} {CH : chain HS} (cr : crypto) (strict : bool) (ds : list fundef) (a : crypto_fun) (vs : list value) (g : HS) : option (res HS value) :=
  as_fun (eval_kexp cr strict (run_defs strict ds) (kf_body a) (combine (map fst (kf_params a)) vs)) g.

(** a strict result is the reference result *)
Lemma eval_kexp_strict {HS} {CH : chain HS} cr ds s : forall r (g : HS) rs, eval_kexp cr true (run_defs true ds) s r g = Some rs -> eval_kexp cr false (run_defs false ds) s r g = Some rs.
Proof.
  induction s as [e|a IHa b IHb|a IHa b IHb c IHc|a IHa|w a IHa|x a IHa b IHb|c IHc a IHa b IHb]; intros r g rs; cbn [eval_kexp].
  - intros H. exact (eval_strict _ _ (run_strict ds) e r g _ H).
  - unfold bind. destruct (eval_kexp cr true _ a r g) as [x|] eqn:Ex; [|discriminate]. rewrite (IHa _ _ _ Ex). destruct x as [v h|v h|k]; auto.
    destruct (eval_kexp cr true _ b r h) as [y|] eqn:Ey; [|discriminate]. rewrite (IHb _ _ _ Ey). auto.
  - unfold bind. destruct (eval_kexp cr true _ a r g) as [x|] eqn:Ex; [|discriminate]. rewrite (IHa _ _ _ Ex). destruct x as [v h|v h|k]; auto.
    destruct (eval_kexp cr true _ b r h) as [y|] eqn:Ey; [|discriminate]. rewrite (IHb _ _ _ Ey). destruct y as [v2 h2|v2 h2|k2]; auto.
    destruct (eval_kexp cr true _ c r h2) as [z|] eqn:Ez; [|discriminate]. rewrite (IHc _ _ _ Ez). auto.
  - unfold bind. destruct (eval_kexp cr true _ a r g) as [x|] eqn:Ex; [|discriminate]. rewrite (IHa _ _ _ Ex). auto.
  - unfold bind. destruct (eval_kexp cr true _ a r g) as [x|] eqn:Ex; [|discriminate]. rewrite (IHa _ _ _ Ex). auto.
  - unfold bind. destruct (eval_kexp cr true _ a r g) as [y|] eqn:Ex; [|discriminate]. rewrite (IHa _ _ _ Ex). destruct y; auto.
  - unfold bind. destruct (eval_kexp cr true _ c r g) as [y|] eqn:Ex; [|discriminate]. rewrite (IHc _ _ _ Ex). destruct y as [v h|v h|k]; auto. destruct v as [| |b0| | | | | | | | | | |]; auto. destruct b0; auto.
Qed.
Theorem C75_strict_is_reference : forall {HS} {CH : chain HS} cr ds a vs (g : HS) rs, run_crypto cr true ds a vs g = Some rs -> run_crypto cr false ds a vs g = Some rs.
Proof.
  intros HS CH cr ds a vs g rs H. unfold run_crypto, as_fun in *. destruct (eval_kexp cr true _ _ _ g) as [x|] eqn:Ex; [|discriminate].
  rewrite (eval_kexp_strict _ _ _ _ _ _ Ex). exact H.
Qed.
Print Assumptions C75_strict_is_reference.

(** ** What the compiled function does *)
Section Compiled.
Context {HS : Type} {CH : chain HS} (E : env HS) (HE : has_std E) (cr : crypto) (Hcr : crypto_ok cr) (HN : host_crypto cr E).
Context (sig : list (string * fsig)) (rt : ty) (L : list (ty * value * Z)) (X : Z) (HX0 : 0 <= X) (Hcap : chain_cap (HS := HS) < 2 ^ 31) (funs : string -> list value -> M HS value) (Hhost : host_ok E).
Context (Hfuns : forall f ts tr, assoc f sig = Some (ts, tr) -> fun_ok E L X funs f ts tr).
Lemma kexp_ok s : forall G, wt_kexp sig rt G s = true -> incl (kexp_lits s) L ->
  impl E rt L X G (kexp_ty s) (kexp_frame sig s) (comp_kexp sig rt s) (eval_kexp cr true funs s).
Proof.
  assert (BT : forall n t, buff_upto n t = true -> exists k, t = TBuff k /\ k <= n) by (intros n t; destruct t; try discriminate; cbn [buff_upto]; intros H; apply Z.leb_le in H; eauto).
  induction s as [e|a IHa b IHb|a IHa b IHb c IHc|a IHa|w a IHa|x a IHa b IHb|c IHc a IHa b IHb]; intros G Hw HL; cbn [wt_kexp kexp_lits kexp_ty kexp_frame comp_kexp eval_kexp] in *;
    repeat match goal with H : _ && _ = true |- _ => apply andb_prop in H as (? & ?) end.
  - exact (expr_ok E HE sig rt L X HX0 funs Hhost Hfuns e G Hw HL).
  - destruct (BT 32 (kexp_ty a)) as (k1 & Ea & _); [assumption|]. destruct (BT 65 (kexp_ty b)) as (k2 & Eb & _); [assumption|]. rewrite Ea in IHa. rewrite Eb in IHb.
    eapply (recover_ok E cr Hcr HN rt L X HX0 Hcap G k1 k2); [apply IHa|apply IHb]; auto; [eapply incl_app_l; eauto|eapply incl_app_r'; eauto].
  - destruct (BT 32 (kexp_ty a)) as (k1 & Ea & _); [assumption|]. destruct (BT 65 (kexp_ty b)) as (k2 & Eb & _); [assumption|]. destruct (BT 33 (kexp_ty c)) as (k3 & Ec & _); [assumption|].
    rewrite Ea in IHa. rewrite Eb in IHb. rewrite Ec in IHc.
    pose proof (incl_app_l _ _ _ HL) as L1. pose proof (incl_app_r' _ _ _ HL) as L2. pose proof (incl_app_l _ _ _ L2) as L3. pose proof (incl_app_r' _ _ _ L2) as L4.
    eapply (verify_ok E cr HN rt L X Hcap G k1 k2 k3); [apply IHa|apply IHb|apply IHc]; auto.
  - destruct (BT 33 (kexp_ty a)) as (k1 & Ea & Hk); [assumption|]. rewrite Ea in IHa. eapply (principal_of_ok E cr Hcr HN rt L X HX0 Hcap G k1); [apply IHa; auto|exact Hk].
  - eapply (hash_ok E cr Hcr HN rt L X HX0 Hcap w G (kexp_ty a)); [destruct (kexp_ty a); try discriminate; auto|apply IHa; auto].
  - eapply let_ok; [apply IHa|apply IHb]; auto; [eapply incl_app_l; eauto|eapply incl_app_r'; eauto].
  - destruct (ty_eq_dec (kexp_ty c) TBool) as [Hc|]; [|discriminate]. destruct (ty_eq_dec (kexp_ty b) (kexp_ty a)) as [Hb|]; [|discriminate].
    pose proof (incl_app_l _ _ _ HL) as L1. pose proof (incl_app_r' _ _ _ HL) as L2. pose proof (incl_app_l _ _ _ L2) as L3. pose proof (incl_app_r' _ _ _ L2) as L4.
    apply if_ok; [rewrite <- Hc; apply IHc|apply IHa|rewrite <- Hb; apply IHb]; auto.
Qed.
End Compiled.

Theorem C75_compiled_crypto : forall {HS} {CH : chain HS} cr host ds f a vs ws (st : store HS) sp rs,
  crypto_module cr host ds f a -> host_ok (crypto_env host ds f a) -> crypto_ready (crypto_room ds a) ds a st sp ->
  Forall2 has_type (map snd (kf_params a)) vs -> rep_list (smem st) (fun a => a < sp) (map snd (kf_params a)) vs ws ->
  run_crypto cr true ds a vs (shost st) = Some rs -> behaves (crypto_env host ds f a) f ws st sp (kf_ret a) rs.
Proof.
  intros HS CH cr host ds f a vs ws st sp rs [M1 M2 M3 M4 M5 M6 M7] Hhost [R1 R2 R3 R4 (R5 & R5') R6] Hty Hrep Hrs.
  set (E := crypto_env host ds f a) in *. set (LL := kexp_lits (kf_body a) ++ prog_lits ds) in *.
  assert (HE : has_std E) by (split; [|reflexivity]; intros n g Hg; unfold E, crypto_env; cbn [efun]; rewrite Hg; reflexivity).
  pose proof (incl_app_l _ _ _ (incl_refl LL)) as HL1. pose proof (incl_app_r' _ _ _ (incl_refl LL)) as HL2.
  assert (HF : forall n fn, assoc n (compile_defs ds) = Some fn -> efun E n = Some fn).
  { intros n fn Hn. unfold E, crypto_env. cbn [efun]. rewrite (defs_own _ M4 _ _ Hn). cbn [assoc]. destruct (String.eqb_spec f n) as [->|]; [|exact Hn]. exfalso.
    assert (K : has_key n (map (fun d => (fd_name d, fd_ret d)) ds) = true).
    { revert Hn. clear. unfold has_key. induction ds as [|d ds IH]; cbn [compile_defs map assoc]; [discriminate|]. destruct (String.eqb (fd_name d) n); auto. }
    congruence. }
  destruct (prog_ok E HE Hhost LL ds M1 HL2 HF) as (F0 & P1).
  pose proof (kexp_ok E HE cr M7 M6 (prog_sig ds) (kf_ret a) LL (frames ds) F0 R5' _ Hhost P1 (kf_body a) (kf_params a) M3 HL1) as HI.
  assert (Hfn : efun E f = Some (define_crypto ds a)) by (unfold E, crypto_env; cbn [efun assoc]; rewrite M5, String.eqb_refl; reflexivity).
  destruct (body_ok E LL (frames ds) f _ _ _ _ _ F0 HI Hfn (fun _ vs h => run_crypto cr true ds a vs h) (fun _ _ => eq_refl)) as (_ & K).
  assert (Hvis : forall a, a < sp -> vis (fun _ => True) sp a) by (intros x Hx; split; auto).
  assert (HL : Forall (held (smem st) (vis (fun _ => True) sp)) LL). { eapply Forall_impl; [|exact R6]. intros x. apply held_frame; auto. }
  assert (HA : rep_list (smem st) (vis (fun _ => True) sp) (map snd (kf_params a)) vs ws) by (eapply rep_list_frame; [| | |exact Hrep]; auto).
  specialize (K vs ws st sp (fun _ => True) rs R1 R2 R3 (fun _ _ => I) HL). unfold crypto_room in R4. change m32 with (2 ^ 32) in K. specialize (K R4 R5 HA Hty Hrs). destruct K as (f0 & r & H1 & H2).
  destruct rs as [v h|v h|c]; [|contradiction|].
  - destruct H2 as (ws' & st' & -> & (Hb1 & Hb2) & Hg & Hh & Hr & Hv). exists ws', st'. split; [exists f0; exact H1|]. split; [exact Hr|]. split; [exact Hv|]. split; [exact Hh|]. split; [exact Hg|]. split; [exact Hb1|exact Hb2].
  - destruct H2 as [(st' & -> & Hg)|(st' & -> & Hg)]; [left|right]; exists st'; (split; [exists f0; exact H1|exact Hg]).
Qed.
Print Assumptions C75_compiled_crypto.

(** ** Concrete programs *)
#[export] Instance host_unit : chain unit := mkchain unit (fun _ _ _ => None) (2 ^ 31 - 1) (fun _ _ => None) (fun _ _ _ => None).
Lemma host_unit_ok (E : env unit) : host_ok (CH := host_unit) E.
Proof. split; [intros p _ vs st rs H; discriminate|]. split; [intros s st h H; discriminate|intros s b st h H; discriminate]. Qed.
Definition only_crypto (cr : crypto) : string -> option (list vt * (list val -> store unit -> result unit)) := fun n => assoc n (crypto_host cr).
(** [(secp256k1-recover? m s)]; [(secp256k1-verify m s k)]; [(if (secp256k1-verify m s k)
    (principal-of? k) (principal-of? j))] *)
Definition p_msg : kexp := KExpr (EVar (TBuff 32) "m").
Definition p_sig : kexp := KExpr (EVar (TBuff 65) "s").
Definition p_key (x : string) : kexp := KExpr (EVar (TBuff 33) x).
Definition recover_prog : crypto_fun := mkcryptofun [("m", TBuff 32); ("s", TBuff 65)] (KRecover p_msg p_sig).
Definition signer_prog : crypto_fun := mkcryptofun [("m", TBuff 32); ("s", TBuff 65); ("k", TBuff 33); ("j", TBuff 33)]
  (KIf (KVerify p_msg p_sig (p_key "k")) (KPrincipalOf (p_key "k")) (KPrincipalOf (p_key "j"))).
Lemma module75 cr a : crypto_ok cr -> a = recover_prog \/ a = signer_prog -> crypto_module cr (only_crypto cr) [] "f" a.
Proof.
  intros Hcr Ha. split; try (destruct Ha as [-> | ->]; reflexivity); try exact Hcr; [intros d []|].
  intros f h Hf. split; [|exact Hf]. unfold crypto_host in Hf. cbn [assoc] in Hf.
  repeat match type of Hf with context [String.eqb ?x f] => destruct (String.eqb_spec x f) as [<-|]; [destruct Ha as [-> | ->]; reflexivity|] end. discriminate Hf.
Qed.
(** every message, every signature and every cryptography: the compiled program recovers the
    key, or answers the error, or aborts, as it should *)
Theorem C75_recover_program : forall cr m s mo so (st : store unit) sp, crypto_ok cr ->
  crypto_ready (crypto_room [] recover_prog) [] recover_prog st sp ->
  has_type (TBuff 32) (CBuff m) -> has_type (TBuff 65) (CBuff s) -> rep (smem st) (fun a => a < sp) (TBuff 32) (CBuff m) [VI32 mo; VI32 (Z.of_nat (length m))] ->
  rep (smem st) (fun a => a < sp) (TBuff 65) (CBuff s) [VI32 so; VI32 (Z.of_nat (length s))] ->
  behaves (crypto_env (only_crypto cr) [] "f" recover_prog) "f" [VI32 mo; VI32 (Z.of_nat (length m)); VI32 so; VI32 (Z.of_nat (length s))] st sp (TResp (TBuff 33) TUInt)
    (match recover cr m s with Some v => Done v tt | None => Abort err_host end).
Proof.
  intros cr m s mo so st sp Hcr HR Hm Hs Rm Rs.
  apply (C75_compiled_crypto cr (only_crypto cr) [] "f" recover_prog [CBuff m; CBuff s]); [apply module75; auto|apply host_unit_ok|exact HR|apply Forall2_cons; [exact Hm|apply Forall2_cons; [exact Hs|apply Forall2_nil]]| |].
  - apply (rl_cons _ _ (TBuff 32) _ (CBuff m) _ [VI32 mo; VI32 (Z.of_nat (length m))] [VI32 so; VI32 (Z.of_nat (length s))]); [exact Rm|].
    change [VI32 so; VI32 (Z.of_nat (length s))] with ([VI32 so; VI32 (Z.of_nat (length s))] ++ []). constructor; [exact Rs|constructor].
  - unfold run_crypto, as_fun. destruct st as [mm gg []]. cbn. unfold or_abort. destruct (recover cr m s); reflexivity.
Qed.
Print Assumptions C75_recover_program.

(** a cryptography: a signature names its signer *)
Definition toy : crypto := mkcrypto (fun m s => if nth 0 s 0 =? 0 then None else Some (map (fun b => b mod 256) (firstn 33 (s ++ repeat 0 33))))
  (fun m s k => if list_eq_dec Z.eq_dec (firstn 33 s) k then true else false) (fun k => if nth 0 k 0 =? 2 then Some (22, map (fun b => b mod 256) (firstn 20 (k ++ repeat 0 20))) else None)
  (fun w l => map (fun b => b mod 256) (firstn 32 ((match w with Keccak256 => l | Sha512_256 => rev l end) ++ repeat 0 32))).
Lemma toy_ok : crypto_ok toy.
Proof.
  assert (R : forall l, Forall is_byte (map (fun b => b mod 256) l)) by (intros l; apply Forall_map, Forall_forall; intros x _; apply Z.mod_pos_bound; lia).
  assert (T : forall n l, length (map (fun b => b mod 256) (firstn n (l ++ repeat 0 n))) = n) by (intros n l; rewrite map_length, firstn_length, app_length, repeat_length; lia).
  split; [|split]; cbn [toy cr_recover cr_address cr_hash].
  - intros m s k. destruct (nth 0 s 0 =? 0); [discriminate|]. intros H. injection H as <-. split; [exact (T 33%nat s)|exact (R (firstn 33 (s ++ repeat 0 33)))].
  - intros k v h. destruct (nth 0 k 0 =? 2); [|discriminate]. intros H. injection H as <- <-. split; [lia|]. split; [exact (T 20%nat k)|exact (R (firstn 20 (k ++ repeat 0 20)))].
  - intros w l. split; [exact (T 32%nat _)|apply R].
Qed.
(** message at 0, signature at 32, keys at 100 and 140 *)
Definition key75 : list Z := 2 :: repeat 7 32.
Definition sig75 : list Z := key75 ++ repeat 9 31 ++ [1].
Definition m75 : mem := write_bytes (write_bytes (write_bytes (write_bytes (blank 65536) 0 (repeat 5 32)) 32 sig75) 100 key75) 140 (3 :: repeat 7 32).
Definition st75 : store unit := mkstore m75 [("stack-pointer", VI32 200); ("runtime-error-code", VI32 0)] tt.
Example C75_ex_hyps : crypto_ok toy /\ crypto_module toy (only_crypto toy) [] "f" signer_prog /\ crypto_ready (crypto_room [] signer_prog) [] signer_prog st75 200 /\
  crypto_ready (crypto_room [] recover_prog) [] recover_prog st75 200 /\
  rep m75 (fun a => a < 200) (TBuff 65) (CBuff sig75) [VI32 32; VI32 65] /\
  recover toy (repeat 5 32) sig75 = Some (COk (CBuff key75)) /\ recover toy (repeat 5 32) key75 = Some (CErr (CUInt 2)) /\ recover toy (repeat 5 31) sig75 = None /\
  run_crypto toy true [] signer_prog [CBuff (repeat 5 32); CBuff sig75; CBuff key75; CBuff key75] tt = Some (Done (COk (CPrin (PStd 22 (2 :: repeat 7 19)))) tt).
Proof.
  split; [apply toy_ok|]. split; [apply module75; [apply toy_ok|auto]|]. assert (C : chain_cap (HS := unit) < 2 ^ 31) by reflexivity.
  split; [split; try exact C; try reflexivity; [eexists; reflexivity|lia|split; vm_compute; [discriminate|reflexivity]|split; [vm_compute; discriminate|exact C]|constructor]|].
  split; [split; try exact C; try reflexivity; [eexists; reflexivity|lia|split; vm_compute; [discriminate|reflexivity]|split; [vm_compute; discriminate|exact C]|constructor]|].
  split. { exists 32. split; [reflexivity|]. split; [lia|]. split; [vm_compute; reflexivity|]. split; [split; [lia|]; split; [split; vm_compute; discriminate|vm_compute; reflexivity]|]. intros x Hx. cbn in Hx. lia. }
  repeat split; vm_compute; reflexivity.
Qed.
Example C75_ex_recover : match invoke (crypto_env (only_crypto toy) [] "f" recover_prog) 300 "f" [VI32 0; VI32 32; VI32 32; VI32 65] st75 with
  | RVals ws st' => ws = [VI32 1; VI32 228; VI32 33; VI64 0; VI64 0] /\ bytes_at (smem st') 228 33 = key75 | _ => False end.
Proof. vm_compute. auto. Qed.
Example C75_ex_abort : match invoke (crypto_env (only_crypto toy) [] "f" recover_prog) 300 "f" [VI32 0; VI32 31; VI32 32; VI32 65] st75 with RTrap THost _ => True | _ => False end.
Proof. vm_compute. exact I. Qed.
Example C75_ex_signer : match invoke (crypto_env (only_crypto toy) [] "f" signer_prog) 300 "f" [VI32 0; VI32 32; VI32 32; VI32 65; VI32 140; VI32 33; VI32 100; VI32 33] st75 with
  | RVals ws st' => ws = [VI32 1; VI32 200; VI32 22; VI64 0; VI64 0] /\ bytes_at (smem st') 200 22 = 22 :: 2 :: repeat 7 19 ++ [0] | _ => False end.
Proof. vm_compute. auto. Qed.
