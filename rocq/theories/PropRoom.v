(** * Further theorems for C28 and C34: space reserved on the call stack, contents of literals. *)
From Coq Require Import ZArith String List Bool Lia.
Import ListNotations.
From Verif Require Import Wasm StdEnv WasmLogic WasmTac Spec SpecBytes SpecUtf8 Mem MemFacts Bytes Gen GenProofs PropGen
  Clar Codec Rep RepFacts WriteProofs Emit EmitFacts EmitProofs LangEarly.
Open Scope string_scope.
Open Scope list_scope.
Open Scope Z_scope.

(** [payload t v] is what the value takes in memory besides its own words
    ([get_type_size t] bytes); see C27. *)

(** Code that reserves space for a value of type [t] leaves in its local the address
    of a fresh area that starts at the stack pointer and ends at the new one.
    The area has room for the words of the value when the representation is asked
    for, and for the words and everything they refer to when both are. Nothing else
    changes but the stack pointer. *)
Theorem C28_reserved_space : forall {HS} (E : env HS) t repr value l o size c l' ls k (st : store HS) sp v,
  ty_ok t -> has_type t v -> create_call_stack_local t repr value l = (o, size, c, l') -> (o < length ls)%nat ->
  gget (sglob st) "stack-pointer" = Some (VI32 sp) -> 0 <= sp -> 0 <= size -> sp + size < 2 ^ 32 ->
  runs E c (mkcfg ls k st) (ONormal (mkcfg (lset ls o (VI32 sp)) k (with_glob st (gset (sglob st) "stack-pointer" (VI32 (sp + size)))))) /\
  (repr = true -> get_type_size t <= size) /\
  (repr = true -> value = true -> get_type_size t + payload t v <= size).
Proof.
  intros HS E t repr value l o size c l' ls k st sp v Hok Ht HC Ho Hg H0 H1 H2. unfold create_call_stack_local in HC.
  destruct (add_local T32 l) as [o1 l1] eqn:Ea. remember (call_stack_size t repr value) as sz eqn:Es. injection HC as <- <- <- <-.
  pose proof (payload_bound t Hok v Ht) as Hb. pose proof (payload_nonneg t v) as Hp.
  pose proof (words_size_nonneg (clar2wasm_ty t)) as Hs. rewrite words_size_ty in Hs.
  split; [|split].
  - apply wp_runs. change m32 with (2 ^ 32) in *. eapply wp_gget; [exact Hg|]. apply wp_ltee. apply wp_const.
    rewrite (Z.mod_small sz) by lia. eapply wp_b32; [cbn [ibin]; change m32 with (2 ^ 32); rewrite Z.mod_small by lia; reflexivity|]. apply wp_gset. apply wp_nil. reflexivity.
  - intros ->. subst sz. destruct value; cbn [call_stack_size]; lia.
  - intros -> ->. subst sz. cbn [call_stack_size]. lia.
Qed.
Print Assumptions C28_reserved_space.
Example C28_ex_room : create_call_stack_local (TOpt (TBuff 40)) true true (mkl [] [] []) =
  (0%nat, 64, [GGet "stack-pointer"; LTee 0; Const (VI32 64); B32 Add; GSet "stack-pointer"], mkl [T32] [] []).
Proof. reflexivity. Qed.

(** ** C34 *)
(** What each literal is, in memory: strings and buffers their bytes, UTF-8 strings
    the four-byte big-endian scalars, identifiers their UTF-8 text, integers
    sixteen little-endian bytes in two's complement, principals the version, the
    hash, and the length and bytes of the contract name. *)
Definition literal_bytes (l : lit) : list Z :=
  match l with
  | LAscii bs | LBytes bs | LBuff bs => bs
  | LUtf8 cs => flat_map (be_bytes 4) cs
  | LIdent cs => utf8 cs
  | LInt n | LUInt n => le_bytes 16 (n mod 2 ^ 128)
  | LPrin v h n => v :: h ++ Z.of_nat (length n) :: n
  end.
Theorem C34_literal_contents : forall before l after,
  let ss := before ++ GLit l :: after in
  Forall step_ok ss -> demand ss < 2 ^ 32 ->
  holds (instance_mem (compile ss)) (fst (placed before l)) (literal_bytes l) /\
  snd (placed before l) = Z.of_nat (length (literal_bytes l)).
Proof.
  intros before l after ss Hok Hd. destruct (C34_literals_readable before l after Hok Hd) as (H1 & H2 & _).
  unfold ss in Hok. apply Forall_app in Hok. destruct Hok as (_ & Hok). inversion_clear Hok as [|? ? Hl _]. cbn [step_ok] in Hl.
  assert (He : lit_data l = literal_bytes l); [|rewrite <- He; split; [exact H1|exact H2]].
  destruct l; cbn [lit_data literal_bytes lit_ok] in *; try reflexivity.
  - clear. induction scalars as [|c cs IH]; [reflexivity|]. cbn [flat_map]. rewrite IH. f_equal.
    unfold be4, be_bytes. cbn [le_bytes rev app]. rewrite !Z.div_div by lia. reflexivity.
  - change 16%nat with (8 + 8)%nat. rewrite le_bytes_app. change (256 ^ Z.of_nat 8) with (2 ^ 64). f_equal.
    change (2 ^ 64) with (256 ^ Z.of_nat 8). apply le_bytes_mod.
  - rewrite (Z.mod_small n (2 ^ 128)) by (unfold is_u128 in Hl; lia).
    change 16%nat with (8 + 8)%nat. rewrite le_bytes_app. change (256 ^ Z.of_nat 8) with (2 ^ 64). f_equal.
    change (2 ^ 64) with (256 ^ Z.of_nat 8). apply le_bytes_mod.
Qed.
Print Assumptions C34_literal_contents.
Example C34_ex_contents : let ss := [GLit (LInt (-2)); GLit (LPrin 22 [1; 2; 3] [97; 98])] in
  bytes_at (instance_mem (compile ss)) (fst (placed [] (LInt (-2)))) 16 = 254 :: repeat 255 15.
Proof. vm_compute. reflexivity. Qed.
