(** * Property C54: the hash words of the language *)
From Coq Require Import ZArith String List Bool Lia.
Import ListNotations.
From Verif Require Import Wasm Std StdEnv WasmLogic WasmTac Spec SpecBytes Mem MemFacts Bytes SpecHash Gen GenProofs PropGen Clar Emit EmitFacts
  LangEarly CallProofs Sha256Main Sha512Main HashWord PropHash.
Open Scope string_scope.
Open Scope list_scope.
Open Scope Z_scope.

(** The published functions *)
Definition hash_of (w : hword) : list Z -> list Z :=
  match w with WSha256 => sha256 | WSha512 => sha512 | WHash160 => fun m => ripemd160 (sha256 m) end.

(** The argument on the stack: an integer, whose sixteen little-endian bytes are
    hashed, or the address and length of a buffer that lies below [top]. *)
Definition argument {HS} (a : harg) (st : store HS) (top : Z) (ws : list val) (msg : list Z) : Prop :=
  match a with
  | HInt => exists n, integer n ws /\ msg = le_bytes 16 (n mod 2 ^ 128)
  | HBuf max => exists data, ws = [VI32 data; VI32 (Z.of_nat (length msg))] /\ holds (smem st) data msg /\
                  Z.of_nat (length msg) <= max /\ data + Z.of_nat (length msg) <= top
  end.

(** The state of a contract whose compilation made the steps [ss], when it comes to
    a point where the stack pointer is [sp] and [room] more bytes are reserved on
    the call stack: the reservations made so far, with this one, stay within the total. *)
Definition at_point {HS} (ss : list gstep) (st : store HS) (sp room : Z) : Prop :=
  ready st sp /\ msize (smem st) = msize (instance_mem (compile ss)) /\
  initial_stack_pointer (compile ss) <= sp /\ sp + room <= initial_stack_pointer (compile ss) + sumz frame_of ss.

(** The code of the word takes the argument from the stack and leaves the address and length of
    the digest, just above the old stack pointer. Nothing below it changes. *)
Definition word_digests {HS} (E : env HS) (w : hword) (a : harg) (st : store HS) (sp : Z) (ws : list val) (msg : list Z) : Prop :=
  forall l c l' ls stk, traverse_hash w a l = (c, l') -> (length (l_tys l') <= length ls)%nat ->
  exists ls' m', runs E c (mkcfg ls (rev ws ++ stk) st)
      (ONormal (mkcfg ls' (VI32 (Z.of_nat (length (hash_of w msg))) :: VI32 sp :: stk)
         (mkstore m' (gset (sglob st) "stack-pointer" (VI32 (sp + Z.of_nat (length (hash_of w msg))))) (shost st)))) /\
    bytes_at m' sp (length (hash_of w msg)) = hash_of w msg /\
    (forall i, (i < length (l_tys l))%nat -> nth_error ls' i = nth_error ls i) /\ length ls' = length ls /\
    msize m' = msize (smem st) /\ forall x, x < sp -> rd m' x = rd (smem st) x.

(** scratch space each function needs above the digest *)
Definition scratch (w : hword) (a : harg) (msg : list Z) : Z :=
  match w, a with
  | WSha256, HInt => 354 | WSha256, HBuf _ => 288 + Z.of_nat (length (sha2_pad SHA256 msg))
  | WSha512, HInt => 834 | WSha512, HBuf _ => 704 + Z.of_nat (length (sha2_pad SHA512 msg))
  | WHash160, HInt => 386 | WHash160, HBuf _ => 320 + Z.of_nat (length (sha2_pad SHA256 msg))
  end.

Lemma hash_of_len w msg : Z.of_nat (length (hash_of w msg)) = buffer_size w.
Proof. destruct w; cbn [hash_of buffer_size]; [rewrite sha256_len|rewrite sha512_len|rewrite ripemd160_len]; reflexivity. Qed.

Lemma integer_two n ws : integer n ws -> exists x y, ws = [x; y].
Proof. intros [(_ & ->)|(_ & ->)]; do 2 eexists; reflexivity. Qed.

(** one call, whatever the function *)
Lemma hash_call {HS} (E : env HS) : has_std E -> forall w a st sp ws msg, argument a st (sp - buffer_size w) ws msg -> ready st sp ->
  buffer_size w <= sp -> sp + scratch w a msg <= msize (smem st) -> (match a with HBuf n => n < 2 ^ 29 | _ => True end) ->
  digests E (hash_func w a) (ws ++ [VI32 (sp - buffer_size w)]) st sp (scratch w a msg) (sp - buffer_size w) (hash_of w msg).
Proof.
  intros HE w a st sp ws msg HA HR Hw Hs Hn.
  assert (H0 : 0 <= sp) by (destruct HR as (_ & HR & _); lia).
  destruct a as [|max].
  - destruct HA as (n & Hi & ->). destruct w; cbn [buffer_size hash_func scratch] in *.
    + apply (C18_sha256_int E HE st sp n ws (sp - 32) HR Hi); unfold disjoint; lia.
    + apply (C18_sha512_int E HE st sp n ws (sp - 64) HR Hi); unfold disjoint; lia.
    + apply (C18_hash160_int E HE st sp n ws (sp - 20) HR Hi); unfold disjoint; lia.
  - destruct HA as (data & -> & Hh & Hl & Hd). destruct w; cbn [buffer_size hash_func scratch app] in *.
    + apply (C15_sha256 E HE st sp data msg (sp - 32) HR Hh); unfold disjoint; lia.
    + apply (C16_sha512 E HE st sp data msg (sp - 64) HR Hh); unfold disjoint; lia.
    + apply (C17_hash160 E HE st sp data msg (sp - 20) HR Hh); unfold disjoint; lia.
Qed.
Lemma hash_arity {HS} (E : env HS) : has_std E -> forall w a, fun_arity E (hash_func w a) = Some 3%nat.
Proof.
  intros HE w a. unfold fun_arity. destruct w, a; cbn [hash_func];
  (erewrite (std_fun _ HE) by reflexivity); reflexivity.
Qed.

Lemma gget_gset_eq g n v w : gget g n = Some w -> gget (gset g n v) n = Some v.
Proof. apply gget_gset_same. Qed.

Lemma word_ok {HS} (E : env HS) : has_std E -> forall w a st sp ws msg, ready st sp -> argument a st sp ws msg ->
  (match a with HBuf n => n < 2 ^ 29 | _ => True end) ->
  sp + buffer_size w + scratch w a msg <= msize (smem st) -> word_digests E w a st sp ws msg.
Proof.
  intros HE w a st sp ws msg HR HA Hn Hs l c l' ls stk HC HL.
  assert (Hsc : 0 < scratch w a msg) by (destruct w, a; cbn [scratch]; lia).
  assert (Hbs : 0 < buffer_size w <= 64) by (destruct w; cbn; lia).
  destruct HR as (Hg & H0 & Hm & Hc).
  set (st1 := with_glob st (gset (sglob st) "stack-pointer" (VI32 (sp + buffer_size w)))).
  assert (HR1 : ready st1 (sp + buffer_size w)).
  { split; [eapply gget_gset_eq; exact Hg|]. split; [lia|]. split; [exact Hm|exact Hc]. }
  assert (HA1 : argument a st1 (sp + buffer_size w - buffer_size w) ws msg) by (replace (sp + buffer_size w - buffer_size w) with sp by lia; exact HA).
  destruct (hash_call E HE w a st1 (sp + buffer_size w) ws msg HA1 HR1 ltac:(lia) Hs Hn) as (m' & Hcall & Hb & Hsz & Hk).
  replace (sp + buffer_size w - buffer_size w) with sp in * by lia.
  assert (Hws : exists x y, ws = [x; y]) by (destruct a; [destruct HA as (n & Hi & _); apply (integer_two _ _ Hi)|destruct HA as (d & -> & _); eauto]).
  destruct Hws as (x & y & ->). unfold traverse_hash, create_call_stack_local, add_local in HC. cbn [call_stack_size get_type_in_memory_size] in HC.
  set (o := length (l_tys l)) in *.
  set (ls1 := lset ls o (VI32 sp)).
  exists (match a with HInt => ls1 | HBuf _ => lset ls1 (S o) y end), m'.
  assert (Hln : length ls1 = length ls) by apply lset_len.
  split; [|split; [exact Hb|]].
  - apply wp_runs. rewrite hash_of_len in *. cbn [rev app].
    assert (Ho : (o < length ls)%nat /\ (match a with HInt => True | HBuf _ => (S o < length ls)%nat end)).
    { destruct a; apply (f_equal snd) in HC; cbn [snd l_tys] in HC; subst l'; cbn [l_tys] in HL; rewrite ?app_length in HL; cbn [length] in HL; fold o in HL; split; trivial; lia. }
    destruct Ho as (Ho & Ho2).
    assert (K : forall rest Q, wp E rest (mkcfg ls1 (y :: x :: stk) st1) Q -> wp E (GGet "stack-pointer" :: LTee o :: Const (VI32 ((buffer_size w + 0) mod m32)) :: B32 Add :: GSet "stack-pointer" :: rest) (mkcfg ls (y :: x :: stk) st) Q).
    { intros rest Q HW. eapply wp_gget; [exact Hg|]. apply wp_ltee. apply wp_const. rewrite (Z.mod_small (buffer_size w + 0)) by lia.
      eapply wp_b32; [cbn [ibin]; rewrite (Z.mod_small (sp + _)) by (change (2 ^ 32) with m32 in Hm; lia); reflexivity|]. apply wp_gset. rewrite Z.add_0_r. exact HW. }
    assert (F : forall lsx, nth_error lsx o = Some (VI32 sp) -> wp E [LGet o; Call (hash_func w a)] (mkcfg lsx (y :: x :: stk) st1) (fun out => out = ONormal (mkcfg lsx (VI32 (buffer_size w) :: VI32 sp :: stk) (mkstore m' (sglob st1) (shost st))))).
    { intros lsx He. eapply wp_lget; [exact He|]. eapply wp_call; [apply hash_arity; exact HE|]. cbn [clocals cstack cstore firstn skipn rev app].
      eapply calls_wpf; [exact Hcall|]. unfold qcall. cbn [rev app]. apply wp_nil. reflexivity. }
    destruct a as [|max].
    + apply (f_equal fst) in HC. cbn [fst] in HC. subst c. cbn [app]. apply K. apply F. unfold ls1. apply lset_same. exact Ho.
    + apply (f_equal fst) in HC. cbn [fst l_tys] in HC. rewrite app_length in HC. cbn [length] in HC. subst c. cbn [app].
      apply K. fold o. replace (o + 1)%nat with (S o) by lia. apply wp_ltee. apply F. rewrite lset_other by lia. unfold ls1. apply lset_same. exact Ho.
  - split.
    { intros i Hi. fold o in Hi. assert (E1 : nth_error ls1 i = nth_error ls i) by (unfold ls1; apply lset_other; lia).
      destruct a; [exact E1|]. rewrite lset_other by lia. exact E1. }
    split; [destruct a; rewrite ?lset_len; exact Hln|]. split; [exact Hsz|].
    intros z Hz. apply Hk; rewrite ?hash_of_len; lia.
Qed.

(** Padding adds at most 72 bytes (64 of fill, 8 of length), 144 for SHA-512 *)
Lemma pad256_bound msg : Z.of_nat (length (sha2_pad SHA256 msg)) <= Z.of_nat (length msg) + 72.
Proof. rewrite pad256_len, plen_pad by lia. pose proof (Z.mod_pos_bound (- (Z.of_nat (length msg) + 9)) 64 ltac:(lia)). lia. Qed.
Lemma pad512_bound msg : Z.of_nat (length (sha2_pad SHA512 msg)) <= Z.of_nat (length msg) + 144.
Proof. rewrite pad512_len, plen512_pad by lia. pose proof (Z.mod_pos_bound (- (Z.of_nat (length msg) + 17)) 128 ltac:(lia)). lia. Qed.

Lemma maxz_in f ss s : In s ss -> f s <= maxz f ss.
Proof. unfold maxz. induction ss as [|x ss IH]; intros H; [destruct H|]. cbn [fold_right]. destruct H as [->|H]; [lia|]. specialize (IH H). lia. Qed.

(** ** C54 *)

(** The contract around the word: its compilation made the word's own steps. *)
Definition compiled_with (ss : list gstep) (w : hword) (a : harg) : Prop :=
  Forall step_ok ss /\ demand ss < 2 ^ 32 /\ incl (hash_steps w a) ss.

(** In every contract that uses sha256 or sha512, whatever else it does with its memory, the
    word leaves the digest of its argument on the call stack. *)
Theorem C54_sha_words_partial : forall {HS} (E : env HS), has_std E -> forall ss w a st sp ws msg,
  w = WSha256 \/ w = WSha512 -> compiled_with ss w a -> match a with HBuf n => n <= 1048576 | _ => True end ->
  at_point ss st sp (Z.of_nat (length (hash_of w msg))) -> argument a st sp ws msg ->
  word_digests E w a st sp ws msg.
Proof.
  intros HS E HE ss w a st sp ws msg Hw (Hok & Hd & Hin) Hn (HR & Hms & Hp & Hroom) HA.
  destruct (C35_pages_sufficient_and_least_partial ss Hok Hd) as (P1 & _ & P2 & _).
  rewrite hash_of_len in Hroom.
  assert (Hwk : (match a with HInt => work_space w | HBuf n => n + work_space w end) <= maxz work_of ss).
  { apply (maxz_in work_of ss (GWork (match a with HInt => work_space w | HBuf n => n + work_space w end))). apply Hin. right. left. reflexivity. }
  apply (word_ok E HE w a st sp ws msg HR HA); [destruct a; [exact I|lia]|].
  rewrite Hms, P2.
  assert (Hs : scratch w a msg <= match a with HInt => work_space w | HBuf n => n + work_space w end); [|lia].
  destruct a as [|n].
  - destruct Hw as [-> | ->]; cbn [scratch work_space]; lia.
  - destruct HA as (d & _ & _ & Hl & _). pose proof (pad256_bound msg). pose proof (pad512_bound msg).
    destruct Hw as [-> | ->]; cbn [scratch work_space]; lia.
Qed.
Print Assumptions C54_sha_words_partial.

(** hash160 needs 32 bytes more than it asks for; it works wherever they happen to be there *)
Theorem C54_hash160_word_partial : forall {HS} (E : env HS), has_std E -> forall ss a st sp ws msg,
  compiled_with ss WHash160 a -> match a with HBuf n => n <= 1048576 | _ => True end ->
  at_point ss st sp 20 -> argument a st sp ws msg ->
  sp + 20 + match a with HInt => 386 | HBuf n => n + 392 end <= msize (smem st) ->
  word_digests E WHash160 a st sp ws msg.
Proof.
  intros HS E HE ss a st sp ws msg (Hok & Hd & Hin) Hn (HR & Hms & Hp & Hroom) HA Hs.
  apply (word_ok E HE WHash160 a st sp ws msg HR HA); [destruct a; [exact I|lia]|]. cbn [buffer_size].
  destruct a as [|n]; [cbn [scratch]; lia|]. destruct HA as (d & _ & _ & Hl & _). pose proof (pad256_bound msg). cbn [scratch]. lia.
Qed.
Print Assumptions C54_hash160_word_partial.

(** Without them the contract traps, although nothing is wrong with its argument. *)
Theorem C54_hash160_traps_refuted : exists ss (st : store unit) sp ws msg c l',
  compiled_with ss WHash160 HInt /\ at_point ss st sp 20 /\ argument HInt st sp ws msg /\
  traverse_hash WHash160 HInt (mkl [] [] []) = (c, l') /\
  exists st', runs (@std_env unit) c (mkcfg [VI32 0] (rev ws) st) (OTrap TMem st').
Proof.
  exists [GFrame 63803; GFrame 20; GWork 361].
  set (st := mkstore (instance_mem (compile [GFrame 63803; GFrame 20; GWork 361])) (gset std_globals "stack-pointer" (VI32 65155)) tt).
  exists st, 65155, [VI64 1; VI64 0], (le_bytes 16 1). eexists. eexists.
  split; [|split; [|split; [|split]]].
  - split; [repeat constructor; cbn; lia|]. split; [vm_compute; reflexivity|]. intros s [<-|[<-|[]]]; cbn; auto.
  - split; [|split; [reflexivity|split; [vm_compute; discriminate|vm_compute; discriminate]]].
    split; [reflexivity|]. split; [lia|]. split; [vm_compute; discriminate|].
    intros x Hx.
    assert (A : forallb (fun i => rd (smem st) (Z.of_nat i) =? seg_at std_data (Z.of_nat i)) (seq 0 1352) = true) by (vm_compute; reflexivity).
    rewrite forallb_forall in A. specialize (A (Z.to_nat x)). rewrite Z2Nat.id in A by lia. apply Z.eqb_eq. apply A. apply in_seq. lia.
  - exists 1. split; [left; split; [split; [lia|reflexivity]|reflexivity]|reflexivity].
  - reflexivity.
  - match goal with |- exists st', runs ?E ?c ?s _ =>
      assert (A : match execs E 100 c s with OTrap TMem _ => true | _ => false end = true) by (vm_compute; reflexivity);
      destruct (execs E 100 c s) as [s1| | |k1 st1| |] eqn:Hx; try discriminate A; destruct k1; try discriminate A;
      exists st1; apply (runs_compute E 100 c s _ Hx); discriminate end.
Qed.
Print Assumptions C54_hash160_traps_refuted.

(** (sha256 1) in a contract that fills its page to the last byte *)
Definition c54_steps : list gstep := [GFrame 63791; GFrame 32; GWork 361].
Definition c54_store : store unit := mkstore (instance_mem (compile c54_steps)) (gset std_globals "stack-pointer" (VI32 65143)) tt.
Example C54_ex : word_digests (@std_env unit) WSha256 HInt c54_store 65143 [VI64 1; VI64 0] (le_bytes 16 (1 mod 2 ^ 128)).
Proof.
  apply (C54_sha_words_partial std_env std_env_ok c54_steps); [left; reflexivity| |exact I| |].
  - split; [repeat constructor; cbn; lia|]. split; [vm_compute; reflexivity|]. intros s [<-|[<-|[]]]; cbn; auto.
  - cbn [hash_of]. rewrite sha256_len. split; [|split; [reflexivity|split; [vm_compute; discriminate|vm_compute; discriminate]]].
    split; [reflexivity|]. split; [lia|]. split; [vm_compute; discriminate|].
    intros x Hx.
    assert (A : forallb (fun i => rd (smem c54_store) (Z.of_nat i) =? seg_at std_data (Z.of_nat i)) (seq 0 1352) = true) by (vm_compute; reflexivity).
    rewrite forallb_forall in A. specialize (A (Z.to_nat x)). rewrite Z2Nat.id in A by lia. apply Z.eqb_eq. apply A. apply in_seq. lia.
  - exists 1. split; [left; split; [split; [lia|reflexivity]|reflexivity]|reflexivity].
Qed.
