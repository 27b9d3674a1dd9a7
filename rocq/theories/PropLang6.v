(** * C65: filter *)
From Coq Require Import ZArith String List Bool Lia.
Import ListNotations.
From Verif Require Import Wasm Std StdEnv WasmLogic WasmTac Spec Mem MemFacts Bytes SpecBytes SpecUtf8 Clar Rep RepFacts ArgProofs Emit Equal Ast SpecLang Lang Typing
  LangFacts LangBase LangMem LangConcat LangCall LangIndex LangPrim LangMain Filter PropLang.
Open Scope string_scope.
Open Scope list_scope.
Open Scope Z_scope.

(** ** Specification *)
(** [g], asked about each element in turn, answers true exactly on the elements kept,
    in order; if one of the calls aborts, nothing more is done *)
Inductive filters {HS} (g : list value -> M HS value) : list value -> HS -> res HS (list value) -> Prop :=
| filters_end h : filters g [] h (Done [] h)
| filters_keep x xs h h' ys h'' : g [x] h = Some (Done (CBool true) h') -> filters g xs h' (Done ys h'') -> filters g (x :: xs) h (Done (x :: ys) h'')
| filters_drop x xs h h' ys h'' : g [x] h = Some (Done (CBool false) h') -> filters g xs h' (Done ys h'') -> filters g (x :: xs) h (Done ys h'')
| filters_later x xs h b h' c : g [x] h = Some (Done (CBool b) h') -> filters g xs h' (Abort c) -> filters g (x :: xs) h (Abort c)
| filters_abort x xs h c : g [x] h = Some (Abort c) -> filters g (x :: xs) h (Abort c).

Lemma filters_run {HS} (g : list value -> M HS value) xs h out : filters g xs h out -> filterF g xs h = Some out.
Proof.
  induction 1 as [h|x xs h h' ys h'' Hg H IH|x xs h h' ys h'' Hg H IH|x xs h b h' c Hg H IH|x xs h c Hg]; cbn [filterF]; unfold bind; [reflexivity|rewrite Hg, IH; reflexivity..|rewrite Hg; reflexivity].
Qed.

(** The module of the program [ds] with one more function:
    [(define-private (f ps...) (filter g x))]  *)
Definition filter_env {HS} (host : string -> option (list vt * (list val -> store HS -> result HS))) (ds : list fundef)
  (f : string) (ps : list (string * ty)) (t : ty) (g x : string) : env HS :=
  mkenv (fun n => match assoc n std_funs with Some fn => Some fn | None => if String.eqb n f then Some (define_filter ps t g x) else assoc n (compile_defs ds) end) host std_table.

(** ** C65 *)
(** When the sequence has an element: the call returns the sequence of the elements
    the discriminator (a function of the program, of any kind) answers true to, in order,
    or aborts with the error of the first call that aborts. *)
Theorem C65_filter_partial : forall {HS} {CH : chain HS} host ds f ps t g x args ws (st : store HS) sp v out,
  wt_prog ds = true -> own_names ds -> assoc f std_funs = None -> assoc f (prog_sig ds) = None -> host_ok (filter_env host ds f ps t g x) ->
  ready ds st sp -> sp + seq_max t * unit_size t + frames ds <= msize (smem st) ->
  Forall2 has_type (map snd ps) args -> rep_list (smem st) (fun a => a < sp) (map snd ps) args ws ->
  is_seq t = true -> ty_ok t -> assoc x ps = Some t -> assoc x (combine (map fst ps) args) = Some v ->
  assoc g (prog_sig ds) = Some ([elem_ty t], TBool) ->
  seq_items v <> [] -> filters (run_defs true ds g) (seq_items v) (shost st) out ->
  match out with
  | Done kept h => exists w, seq_items w = kept /\ behaves (filter_env host ds f ps t g x) f ws st sp t (Done w h)
  | Abort c => behaves (filter_env host ds f ps t g x) f ws st sp t (Abort c)
  | Early _ _ => False
  end.
Proof.
  intros HS CH host ds f ps t g x args ws st sp v out Hwt Hown Hfs Hfd HO [R1 R2 R3 R4 RC R5] Hroom Hty Hrep Ht Hok Hx Hv Hg Hne Hfil.
  set (E := filter_env host ds f ps t g x).
  assert (HE : has_std E) by (split; [intros n fn H; cbn [E filter_env efun]; rewrite H; reflexivity|reflexivity]).
  assert (Hdf : forall d fn, assoc d (compile_defs ds) = Some fn -> efun E d = Some fn).
  { intros d fn Hd. cbn [E filter_env efun]. rewrite (defs_own _ Hown _ _ Hd). destruct (String.eqb_spec d f) as [->|]; [|exact Hd]. exfalso. clear - Hfd Hd. induction ds as [|d0 ds IH]; [discriminate|].
    cbn [prog_sig map assoc compile_defs def_sig] in *. unfold def_sig in Hfd at 1. destruct (String.eqb (fd_name d0) f); [discriminate|]. apply IH; assumption. }
  destruct (prog_ok E HE HO (prog_lits ds) ds Hwt (incl_refl _) Hdf) as (Hfr & HK).
  assert (Hvis : forall a, a < sp -> vis (fun _ => True) sp a) by (intros a Ha; split; auto).
  assert (HL : Forall (held (smem st) (vis (fun _ => True) sp)) (prog_lits ds)) by (eapply Forall_impl; [|exact R5]; intros y; apply held_frame; auto).
  assert (HA : rep_list (smem st) (vis (fun _ => True) sp) (map snd ps) args ws) by (eapply rep_list_frame; [| | |exact Hrep]; auto).
  assert (Hef : efun E f = Some (define_filter ps t g x)) by (cbn [E filter_env efun]; rewrite Hfs, String.eqb_refl; reflexivity).
  assert (Htv : has_type t v).
  { clear - Hty Hx Hv. revert args Hty Hv. induction ps as [|[y s] ps IH]; intros args Hty Hv; [discriminate|]. cbn [map snd fst assoc] in *. inversion Hty as [|? a ? args' T1 T2]; subst. cbn [combine assoc] in Hv.
    destruct (String.eqb y x); [congruence|]. eapply IH; eassumption. }
  assert (Hlen : 0 < seq_len v) by (rewrite <- (items_len _ _ Ht Htv); destruct (seq_items v); [congruence|cbn [length]; lia]).
  pose proof (filter_fun_ok E (prog_lits ds) (frames ds) Hfr (run_defs true ds) ps t x g f Ht Hok (HK _ _ _ Hg) Hx Hef args ws st sp (fun _ => True) v out R1 R2 R3 (fun _ _ => I) HL
    ltac:(rewrite (seq_size _ Ht); split; [exact Hroom|apply R4]) RC HA Hty Hv Hlen (filters_run _ _ _ _ Hfil)) as K.
  destruct K as (f0 & r & H1 & H2). destruct out as [ys h|y h|c].
  - destruct H2 as (w & ws' & st' & -> & Hw & (Hb1 & Hb2) & Hgl & Hh & Hr & Hvt). exists w. split; [exact Hw|]. exists ws', st'. split; [exists f0; exact H1|]. split; [exact Hr|]. split; [exact Hvt|]. split; [exact Hh|]. split; [exact Hgl|]. split; [exact Hb1|exact Hb2].
  - clear - Hfil. remember (Early y h) as o. induction Hfil; congruence.
  - destruct H2 as [(st' & -> & Hgl)|(st' & -> & Hgl)]; [left|right]; exists st'; (split; [exists f0; exact H1|exact Hgl]).
Qed.
Print Assumptions C65_filter_partial.

(*  (define-private (big (x uint)) (> x u2))
    (define-private (f (l (list 4 uint))) (filter big l))                              *)
Definition ex_big : fundef := mkdef "big" [("x", TUInt)] TBool (EWord WGt TBool [EVar TUInt "x"; ENum TUInt 2]).
Definition ex_fenv : env unit := filter_env (fun _ => None) [ex_big] "f" [("l", TList 4 TUInt)] (TList 4 TUInt) "big" "l".
Definition ex_fst : store unit := mkstore (write_bytes (mkmem (fun _ => 0) 65536) 16 (le_bytes 16 3 ++ le_bytes 16 2 ++ le_bytes 16 7)) [("stack-pointer", VI32 64); ("runtime-error-code", VI32 0)] tt.
Example C65_ex : wt_prog [ex_big] = true /\ ready [ex_big] ex_fst 64 /\
  rep_list (smem ex_fst) (fun a => a < 64) [TList 4 TUInt] [CList [CUInt 3; CUInt 2; CUInt 7]] [VI32 16; VI32 48] /\
  filters (run_defs true [ex_big] "big") [CUInt 3; CUInt 2; CUInt 7] tt (Done [CUInt 3; CUInt 7] tt) /\
  match invoke ex_fenv 100 "f" [VI32 16; VI32 48] ex_fst with RVals ws st' => ws = [VI32 64; VI32 32] /\ bytes_at (smem st') 64 32 = le_bytes 16 3 ++ le_bytes 16 7 | _ => False end.
Proof.
  split; [vm_compute; reflexivity|]. split. { split; [reflexivity|eexists; reflexivity|lia|vm_compute; split; [discriminate|reflexivity]|vm_compute; discriminate|constructor]. }
  split.
  { change [VI32 16; VI32 48] with ([VI32 16; VI32 48] ++ []). constructor; [|constructor]. cbn [rep length]. exists 16. split; [reflexivity|]. split; [lia|]. split; [vm_compute; first [reflexivity|discriminate|split; first [reflexivity|discriminate]]|]. split; [vm_compute; first [reflexivity|discriminate|split; first [reflexivity|discriminate]]|].
    split; [intros a Ha; change (Z.of_nat 3 * words_size (clar2wasm_ty TUInt)) with 48 in Ha; lia|].
    split; [eexists [VI64 3; VI64 0]; split; [split; [vm_compute; discriminate|split; [vm_compute; split; discriminate|vm_compute; reflexivity]]|reflexivity]|].
    split; [eexists [VI64 2; VI64 0]; split; [split; [vm_compute; discriminate|split; [vm_compute; split; discriminate|vm_compute; reflexivity]]|reflexivity]|].
    split; [eexists [VI64 7; VI64 0]; split; [split; [vm_compute; discriminate|split; [vm_compute; split; discriminate|vm_compute; reflexivity]]|reflexivity]|exact I]. }
  split. { eapply filters_keep; [reflexivity|]. eapply filters_drop; [reflexivity|]. eapply filters_keep; [reflexivity|]. apply filters_end. }
  vm_compute. split; reflexivity.
Qed.

(** On an empty sequence the loop is entered all the same, and its counter wraps: the
    discriminator is asked about whatever lies in memory from there on, and the call
    dies at the end of memory. *)
Definition ex_odd : fundef := mkdef "big" [("x", TUInt)] TBool (EBool false).
Definition ex_fenv2 : env unit := filter_env (fun _ => None) [ex_odd] "f" [("l", TList 4 TUInt)] (TList 4 TUInt) "big" "l".
Definition ex_fst2 : store unit := mkstore (mkmem (fun _ => 0) 65536) [("stack-pointer", VI32 65000); ("runtime-error-code", VI32 0)] tt.
Definition ex_died : bool := match invoke ex_fenv2 1000 "f" [VI32 64000; VI32 0] ex_fst2 with RTrap TMem _ => true | _ => false end.
Theorem C65_empty_sequence_refuted : 
  wt_prog [ex_odd] = true /\ ready [ex_odd] ex_fst2 65000 /\
  rep_list (smem ex_fst2) (fun a => a < 65000) [TList 4 TUInt] [CList []] [VI32 64000; VI32 0] /\
  filters (run_defs true [ex_odd] "big") (seq_items (CList [])) tt (Done [] tt) /\
  exists st', calls ex_fenv2 "f" [VI32 64000; VI32 0] ex_fst2 (RTrap TMem st').
Proof.
  split; [vm_compute; reflexivity|]. split. { split; [reflexivity|eexists; reflexivity|lia|vm_compute; split; [discriminate|reflexivity]|vm_compute; discriminate|constructor]. }
  split.
  { change [VI32 64000; VI32 0] with ([VI32 64000; VI32 0] ++ []). constructor; [|constructor]. cbn [rep length]. exists 64000. split; [reflexivity|]. split; [lia|]. split; [vm_compute; first [reflexivity|discriminate|split; first [reflexivity|discriminate]]|]. split; [vm_compute; first [reflexivity|discriminate|split; first [reflexivity|discriminate]]|].
    split; [intros a Ha; change (Z.of_nat 0 * words_size (clar2wasm_ty TUInt)) with 0 in Ha; lia|exact I]. }
  split; [apply filters_end|].
  assert (H : ex_died = true) by (vm_compute; reflexivity). unfold ex_died in H. destruct (invoke ex_fenv2 1000 "f" [VI32 64000; VI32 0] ex_fst2) as [w s|k s| |] eqn:Ei; try discriminate H. destruct k; try discriminate H.
  exists s. apply (calls_compute _ 1000); [exact Ei|discriminate].
Qed.
Print Assumptions C65_empty_sequence_refuted.
