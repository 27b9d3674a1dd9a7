(** * C65: filter with the word [not] *)
From Coq Require Import ZArith String List Bool Lia.
Import ListNotations.
From Verif Require Import Wasm Std StdEnv WasmLogic WasmTac Spec Mem MemFacts Bytes SpecBytes SpecUtf8 Clar Rep RepFacts ArgProofs Emit Equal Ast SpecLang Lang Typing
  LangFacts LangBase LangMem LangConcat LangArith LangWord LangCall LangIndex LangPrim LangMain Filter PropLang PropLang6 PropCodec.
Open Scope string_scope.
Open Scope list_scope.
Open Scope Z_scope.

(** the word, as a discriminator; it is emitted as a call of the library function
    (words/logical.rs 17-29, words/conditionals.rs 517-523), as a user function is *)
Definition not_fun {HS} (f : string) (vs : list value) : M HS value := match vs with [CBool b] => ret (CBool (negb b)) | _ => bad end.
Lemma not_ok {HS} {CH : chain HS} (E : env HS) L X : has_std E -> fun_ok E L X not_fun "stdlib.not" [TBool] TBool.
Proof.
  intros HE. split; [apply (std_arity E HE); eexists; split; reflexivity|].
  intros vs ws st sp F rs H1 H2 H3 H4 H5 H6 H7 Hr Ht Hf.
  inversion Hr as [|? ? v ? w ws2 R1 R2]; subst. inversion R2; subst. rewrite app_nil_r in *.
  inversion Ht as [|? ? ? ? T1 T2]; subst. destruct v; cbn [has_type] in T1; try contradiction. cbn [rep] in R1. subst w. cbn in Hf. injection Hf as <-.
  destruct (not_does E HE b st) as (_ & Hd).
  destruct Hd as (w & Hd & Hw & _). eapply calls_wpf; [exact Hd|]. exists w, st. split; [reflexivity|]. split; [split; [reflexivity|auto]|]. split; [reflexivity|]. split; [reflexivity|]. split; [apply Hw|exact I].
Qed.

(** ** The module: any program [ds] and [(define-private (f ps...) (filter not x))] *)
Definition filter_not_env {HS} (host : string -> option (list vt * (list val -> store HS -> result HS))) (ds : list fundef) (f : string) (ps : list (string * ty)) (n : Z) (x : string) : env HS :=
  filter_env host ds f ps (TList n TBool) "stdlib.not" x.
Definition bools (bs : list bool) : value := CList (map CBool bs).
(** Every list of booleans but the empty one: what is returned are its false elements, nothing
    below the stack pointer, no global and no host state changes. *)
Theorem C65_filter_not_partial : forall {HS} {CH : chain HS} host ds f ps n x args ws (st : store HS) sp bs,
  assoc f std_funs = None -> gget (sglob st) "stack-pointer" = Some (VI32 sp) -> (exists w, gget (sglob st) "runtime-error-code" = Some w) ->
  0 <= sp -> sp + 4 * n <= msize (smem st) < 2 ^ 32 -> msize (smem st) <= chain_cap (HS := HS) ->
  Forall2 has_type (map snd ps) args -> rep_list (smem st) (fun a => a < sp) (map snd ps) args ws ->
  ty_ok (TList n TBool) -> assoc x ps = Some (TList n TBool) -> assoc x (combine (map fst ps) args) = Some (bools bs) -> bs <> [] ->
  behaves (filter_not_env host ds f ps n x) f ws st sp (TList n TBool) (Done (bools (List.filter negb bs)) (shost st)).
Proof.
  intros HS CH host ds f ps n x args ws st sp bs Hfs R1 R2 R3 R4 RC Hty Hrep Hok Hx Hv Hne.
  set (E := filter_not_env host ds f ps n x). set (t := TList n TBool) in *.
  assert (HE : has_std E) by (split; [intros k fn H; cbn [E filter_not_env filter_env efun]; rewrite H; reflexivity|reflexivity]).
  assert (Hef : efun E f = Some (define_filter ps t "stdlib.not" x)) by (cbn [E filter_not_env filter_env efun]; rewrite Hfs, String.eqb_refl; reflexivity).
  assert (Hvis : forall a, a < sp -> vis (fun _ => True) sp a) by (intros a Ha; split; auto).
  assert (HA : rep_list (smem st) (vis (fun _ => True) sp) (map snd ps) args ws) by (eapply rep_list_frame; [| | |exact Hrep]; auto).
  assert (Hrun : filterF (not_fun (HS := HS) "stdlib.not") (map CBool bs) (shost st) = Some (Done (map CBool (List.filter negb bs)) (shost st))).
  { clear. induction bs as [|b bs IH]; [reflexivity|]. cbn [map filterF List.filter]. unfold bind at 1. cbn [not_fun]. unfold ret at 1. cbn beta iota. unfold bind. rewrite IH. destruct b; reflexivity. }
  assert (Hsz : call_stack_size t false true = 4 * n) by (rewrite (seq_size t eq_refl); change (seq_max t) with n; change (unit_size t) with 4; lia).
  pose proof (filter_fun_ok E [] 0 (Z.le_refl 0) not_fun ps t x "stdlib.not" f eq_refl Hok (not_ok E [] 0 HE) Hx Hef args ws st sp (fun _ => True) (bools bs) _ R1 R2 R3 (fun _ _ => I) (Forall_nil _)
    ltac:(rewrite Hsz; change m32 with (2 ^ 32); lia) RC HA Hty Hv ltac:(cbn [bools seq_len]; rewrite map_length; destruct bs; [congruence|cbn [length]; lia]) Hrun) as K.
  destruct K as (f0 & r & H1 & w & ws' & st' & -> & Hw & (Hb1 & Hb2) & Hgl & Hh & Hr & Hvt).
  assert (w = bools (List.filter negb bs)) as -> by (destruct w; cbn [has_type t] in Hvt; try contradiction; cbn [seq_items] in Hw; unfold bools; congruence).
  exists ws', st'. split; [exists f0; exact H1|]. split; [exact Hr|]. split; [exact Hvt|]. split; [exact Hh|]. split; [exact Hgl|]. split; [exact Hb1|exact Hb2].
Qed.
Print Assumptions C65_filter_not_partial.

(** [(define-private (f (l (list 4 bool))) (filter not l))] of (true, false, false) *)
Definition st65n : store unit := mkstore (write_bytes (mkmem (fun _ => 0) 65536) 16 (le_bytes 4 1 ++ le_bytes 4 0 ++ le_bytes 4 0)) [("stack-pointer", VI32 64); ("runtime-error-code", VI32 0)] tt.
Example C65_ex_not : rep_list (smem st65n) (fun a => a < 64) [TList 4 TBool] [bools [true; false; false]] [VI32 16; VI32 12] /\ ty_ok (TList 4 TBool) /\
  Forall2 has_type [TList 4 TBool] [bools [true; false; false]] /\
  match invoke (filter_not_env (fun _ => None) [] "f" [("l", TList 4 TBool)] 4 "l") 100 "f" [VI32 16; VI32 12] st65n with
  | RVals ws st' => ws = [VI32 64; VI32 8] /\ bytes_at (smem st') 64 8 = repeat 0 8 | _ => False end.
Proof.
  split.
  { change [VI32 16; VI32 12] with ([VI32 16; VI32 12] ++ []). constructor; [|constructor]. cbn [bools map rep length]. exists 16. split; [reflexivity|]. split; [lia|]. split; [vm_compute; reflexivity|]. split; [vm_compute; split; discriminate|].
    split; [intros a Ha; change (Z.of_nat 3 * words_size (clar2wasm_ty TBool)) with 12 in Ha; lia|].
    split; [exists [VI32 1]; split; [split; [vm_compute; discriminate|split; [vm_compute; split; discriminate|vm_compute; reflexivity]]|reflexivity]|].
    split; [exists [VI32 0]; split; [split; [vm_compute; discriminate|split; [vm_compute; split; discriminate|vm_compute; reflexivity]]|reflexivity]|].
    split; [exists [VI32 0]; split; [split; [vm_compute; discriminate|split; [vm_compute; split; discriminate|vm_compute; reflexivity]]|reflexivity]|exact I]. }
  split; [apply ty_okb_ok; reflexivity|]. split; [apply Forall2_cons; [cbn; repeat constructor; lia|apply Forall2_nil]|]. vm_compute. auto.
Qed.
