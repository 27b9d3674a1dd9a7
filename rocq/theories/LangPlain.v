(** * Expressions on which the strict and the reference evaluators agree

    The strict evaluator ([eval true], SpecLang.v) yields nothing at the inputs
    where the compiled code is known to differ from the reference.  The syntactic
    conditions below exclude the words concerned, so that for the programs they
    accept nothing is excluded. *)
From Coq Require Import ZArith String List Bool Lia.
Import ListNotations.
From Verif Require Import Wasm StdEnv Spec Clar Ast SpecLang Typing LangMain.
Open Scope Z_scope.

(** words of [EWord] that never abort *)
Definition total_word (w : word) : bool :=
  match w with
  | WLt | WGt | WLe | WGe | WNot | WBitAnd | WBitOr | WBitXor | WXor | WBitNot | WShl | WShr => true
  | WMod | WPow | WLog2 | WSqrti | WToInt | WToUint => false
  end.
(** functions of [fold] and [map] that never abort or call anything *)
Definition quiet_fn (g : fn) : bool := match g with FWord w => total_word w | FBool _ => true | FUser _ _ | FArith _ => false end.
(** neither leaves the function, aborts, nor calls anything *)
Fixpoint quiet (e : expr) : bool :=
  match e with
  | ENum _ _ | EBool _ | EBytes _ _ _ | ENone _ | EVar _ _ => true
  | ESeq a b | ELet _ a b | EDefault a b | EMerge _ a b | EConcat _ a b | EAppend _ _ a b | EElementAt a b | EIndexOf a b => quiet a && quiet b
  | EIf c a b | EMatchOpt c _ a b | EMatchResp c _ a _ b | ESlice c a b => quiet c && quiet a && quiet b
  | EFold g _ a b => quiet_fn g && quiet a && quiet b
  | EMap g _ _ es => quiet_fn g && forallb quiet es
  | EAnd es | EOr es | EList _ _ es => forallb quiet es
  | EEq a es => quiet a && forallb quiet es
  | EWord w _ es => total_word w && forallb quiet es
  | ESome a | EOk a _ | EErr _ a | EIsSome a | EIsNone a | EIsOk a | EIsErr a | EGet _ a | EMaxLen a _ _ | ELen a => quiet a
  | ETuple _ fs => forallb (fun f => quiet (snd f)) fs
  | EUnwrap _ _ | EUnwrapErr _ _ | EAsserts _ _ | ETry _ | EUnwrapPanic _ | EUnwrapErrPanic _ | EArith _ _ _ _ | ECall _ _ _ _ | EPrim _ _ | EAsContract _ | EReplaceAt _ _ _ => false
  end.
(** contains no word that leaves the function early *)
Fixpoint stays (e : expr) : bool :=
  match e with
  | ENum _ _ | EBool _ | EBytes _ _ _ | ENone _ | EVar _ _ => true
  | ESeq a b | ELet _ a b | EDefault a b | EMerge _ a b | EConcat _ a b | EAppend _ _ a b | EElementAt a b | EIndexOf a b | EFold _ _ a b => stays a && stays b
  | EIf c a b | EMatchOpt c _ a b | EMatchResp c _ a _ b | ESlice c a b | EReplaceAt c a b => stays c && stays a && stays b
  | EAnd es | EOr es | EList _ _ es | EWord _ _ es | ECall _ _ _ es | EPrim _ es | EMap _ _ _ es => forallb stays es
  | EEq a es | EArith _ _ a es => stays a && forallb stays es
  | ESome a | EOk a _ | EErr _ a | EIsSome a | EIsNone a | EIsOk a | EIsErr a | EGet _ a | EMaxLen a _ _ | ELen a
  | EUnwrapPanic a | EUnwrapErrPanic a | EAsContract a => stays a
  | ETuple _ fs => forallb (fun f => stays (snd f)) fs
  | EUnwrap _ _ | EUnwrapErr _ _ | EAsserts _ _ | ETry _ => false
  end.
(** arithmetic words whose library function is right on every operand (C01-C06) *)
Definition good_arith (o : arith) (t : ty) (n : nat) : bool :=
  match o, t with OSub, TUInt => false | OMul, TInt => Nat.eqb n 0 | _, _ => true end.
Definition good_word (w : word) (t : ty) : bool := match w, t with WPow, TInt => false | _, _ => true end.
Definition good_fn (g : fn) (t : ty) : bool :=
  match g with FWord w => good_word w t | FArith o => good_arith o t 1 | FUser _ _ | FBool _ => true end.
Definition good_map (g : fn) (t : ty) (n : nat) : bool := match g with FArith o => good_arith o t (n - 1) | _ => good_fn g t end.
(** a left end of [slice?] that fits 32 bits *)
Definition small_left (e : expr) : bool := match e with ENum _ z => z <? 2 ^ 32 | _ => false end.
(** a replacement that is not empty, or in a list *)
Definition good_item (t : ty) (b : expr) : bool :=
  match t, b with
  | TList _ _, _ | _, EBytes _ (CBuff (_ :: _)) _ | _, EBytes _ (CAscii (_ :: _)) _ | _, EBytes _ (CUtf8 (_ :: _)) _ => true
  | _, _ => false
  end.
(** [asserts!] throws a quiet expression, [index-of] looks for one, arithmetic operands after the second are
    quiet, the left end of [slice?] is a small literal, [replace-at?] on buffers and
    strings puts a literal, [as-contract] is not left early, and neither [-] on [uint], [*] on [int] nor [pow] on [int] occurs
    ([s]: whether these conditions are asked for) *)
Fixpoint plain_if (s : bool) (e : expr) : bool :=
  let plain := plain_if s in
  match e with
  | ENum _ _ | EBool _ | EBytes _ _ _ | ENone _ | EVar _ _ => true
  | ESeq a b | ELet _ a b | EUnwrap a b | EUnwrapErr a b | EDefault a b | EMerge _ a b
  | EConcat _ a b | EAppend _ _ a b | EElementAt a b => plain a && plain b
  | EAsserts a b | EIndexOf a b => plain a && plain b && (negb s || quiet b)
  | ESlice a b c => plain a && plain b && plain c && (negb s || small_left b)
  | EReplaceAt a b c => plain a && plain b && plain c && (negb s || good_item (ty_of a) c)
  | EFold g t a b => plain a && plain b && (negb s || good_fn g t)
  | EMap g _ t es => forallb plain es && (negb s || good_map g t (length es))
  | EIf c a b | EMatchOpt c _ a b | EMatchResp c _ a _ b => plain c && plain a && plain b
  | EAnd es | EOr es | EList _ _ es | ECall _ _ _ es | EPrim _ es => forallb plain es
  | EAsContract a => plain a && (negb s || stays a)
  | EWord w t es => forallb plain es && (negb s || good_word w t)
  | EEq a es => plain a && forallb plain es
  | EArith o t a es => plain a && forallb plain es && (negb s || good_arith o t (length es) && forallb quiet (tl es))
  | ESome a | EOk a _ | EErr _ a | ETry a | EUnwrapPanic a | EUnwrapErrPanic a
  | EIsSome a | EIsNone a | EIsOk a | EIsErr a | EGet _ a | EMaxLen a _ _ | ELen a => plain a
  | ETuple _ fs => forallb (fun f => plain (snd f)) fs
  end.
Definition plain : expr -> bool := plain_if true.
Definition plain_prog_if (s : bool) (ds : list fundef) : bool := forallb (fun d => plain_if s (fd_body d)) ds.
Definition plain_prog (ds : list fundef) : bool := forallb (fun d => plain (fd_body d)) ds.

Lemma forallb_all {A} (f : A -> bool) l : Forall (fun x => f x = true) l -> forallb f l = true.
Proof. induction 1; cbn; [reflexivity|]. rewrite H. assumption. Qed.
Lemma plain_false e : plain_if false e = true.
Proof.
  induction e using expr_ind'; cbn [plain_if negb orb]; rewrite ?IHe, ?IHe1, ?IHe2, ?IHe3; try reflexivity;
    rewrite forallb_all by assumption; reflexivity.
Qed.
Lemma quiet_pure e : quiet e = true -> pure e = true.
Proof.
  induction e using expr_ind'; cbn [quiet pure]; intros Hq; try discriminate; try reflexivity; repeat match goal with H : _ && _ = true |- _ => apply andb_prop in H as (? & ?) end;
    repeat (apply andb_true_intro; split); auto.
  all: try (destruct g; cbn in *; congruence).
  all: rewrite ?forallb_forall in *; rewrite ?Forall_forall in *; auto.
Qed.

Section Plain.
Context {HS : Type} {CH : chain HS}.
Definition never {A} (m : M HS A) : Prop := forall h rs, m h = Some rs -> exists a h', rs = Done a h'.
Lemma never_ret {A} (a : A) : never (ret a).
Proof. intros h rs H. injection H as <-. eexists; eexists; reflexivity. Qed.
Lemma never_bad {A} : never (A := A) bad.
Proof. intros h rs H. discriminate. Qed.
Lemma never_opt {A} (o : option A) : never (of_opt o).
Proof. destruct o; [apply never_ret|apply never_bad]. Qed.
Lemma never_bind {A B} (m : M HS A) (f : A -> M HS B) : never m -> (forall a, never (f a)) -> never (bind m f).
Proof.
  intros Hm Hf h rs. unfold bind. destruct (m h) as [x|] eqn:E; [|discriminate]. destruct (Hm _ _ E) as (a & h' & ->). apply Hf.
Qed.
Lemma never_unless {A} s b (m : M HS A) : never m -> never (unless s b m).
Proof. intros H h rs. unfold unless. destruct (s && b h); [discriminate|apply H]. Qed.
Lemma never_mapM {A} (ms : list (M HS A)) : Forall never ms -> never (mapM ms).
Proof. induction 1; cbn [mapM]; [apply never_ret|]. apply never_bind; auto. intros v. apply never_bind; auto. intros vs. apply never_ret. Qed.
Lemma never_allM s (ms : list (M HS value)) : Forall never ms -> never (allM s ms).
Proof.
  induction 1; cbn [allM]; [apply never_ret|]. apply never_bind; auto. intros v. destruct v; try apply never_bad. destruct (Bool.eqb b s); [apply never_ret|assumption].
Qed.

Lemma some_inl (v : value) (x : value + Z) : Some (inl v) = Some x -> exists w, x = inl w.
Proof. intros H. exists v. congruence. Qed.
Lemma word_quiet w vs x : total_word w = true -> word_sem w vs = Some x -> exists v, x = inl v.
Proof.
  intros Hw. assert (Hf : forall f, folded f vs = Some x -> exists v, x = inl v).
  { intros f. destruct vs as [|a vs]; [discriminate|]. cbn [folded]. destruct (bits_all f a vs); [|discriminate]. injection 1 as <-. eexists; reflexivity. }
  assert (Hb : forall o, boolv o = Some x -> exists v, x = inl v).
  { intros [b|]; [|discriminate]. injection 1 as <-. eexists; reflexivity. }
  destruct w; try discriminate; cbn [word_sem]; try (apply Hf).
  all: destruct vs as [|a vs]; try discriminate; try (destruct a; discriminate).
  all: try (destruct vs as [|b vs]; [try discriminate|]); try (destruct vs; [|discriminate]); try (apply Hb).
  all: try (destruct a; try discriminate; apply some_inl).
  all: try (destruct a; try discriminate; destruct b; try discriminate; apply some_inl).
  all: try (destruct a; discriminate).
  all: destruct a; try discriminate; destruct b; try discriminate; destruct vs; try discriminate; apply some_inl.
Qed.

Variables (strict : bool) (funs : string -> list value -> M HS value).
Lemma F_quiet es r : Forall (fun e => quiet e = true -> forall r, never (eval strict funs e r)) es -> forallb quiet es = true ->
  Forall never (map (fun e => eval strict funs e r) es).
Proof. induction 1; cbn [forallb map]; intros Hq; constructor; apply andb_prop in Hq as (? & ?); auto. Qed.
Lemma never_word w vs : total_word w = true -> never (unless strict (fun _ => word_wrong w vs) (bind (of_opt (word_sem w vs)) of_sum)).
Proof.
  intros Hw h rs. unfold unless. destruct (strict && word_wrong w vs); [discriminate|].
  unfold bind, of_opt. destruct (word_sem w vs) as [x|] eqn:E; [|discriminate]. destruct (word_quiet _ _ _ Hw E) as (y & ->). apply never_ret.
Qed.
Lemma never_fold g t xs : quiet_fn g = true -> forall acc, never (foldF strict funs g t xs acc).
Proof.
  intros Hg. induction xs as [|x xs IH]; intros acc; cbn [foldF]; [apply never_ret|]. apply never_bind; [|exact IH].
  destruct g; cbn [quiet_fn apply_fn] in *; try discriminate; [apply never_word; exact Hg|apply never_opt].
Qed.
Lemma never_map g t rs : quiet_fn g = true -> never (mapF strict funs g t rs).
Proof.
  intros Hg. induction rs as [|vs rs IH]; cbn [mapF]; [apply never_ret|]. apply never_bind; [|intros v; apply never_bind; [exact IH|intros ws; apply never_ret]].
  destruct g; cbn [quiet_fn apply_fn] in *; try discriminate; [apply never_word; exact Hg|apply never_opt].
Qed.
Ltac nv := first [apply never_ret | apply never_bad | apply never_opt | apply never_word; assumption | apply never_unless; nv | solve [auto] | apply never_mapM; apply F_quiet; assumption
  | apply never_allM; apply F_quiet; assumption | apply never_bind; [nv | intros ?; nv]
  | match goal with |- never (match ?v with _ => _ end) => destruct v; nv end | idtac].
Lemma quiet_never e : quiet e = true -> forall r, never (eval strict funs e r).
Proof.
  induction e using expr_ind'; intros Hq r; cbn [quiet] in Hq; try discriminate; repeat match goal with H : _ && _ = true |- _ => apply andb_prop in H as (? & ?) end; cbn [eval]; nv.
  - apply never_mapM. clear - H Hq. induction H; cbn [map forallb] in *; constructor; apply andb_prop in Hq as (? & ?); auto.
    apply never_bind; auto. intros v. apply never_ret.
  - apply never_fold; auto.
  - apply never_map; auto.
Qed.
End Plain.
