(** * C26, C27, C42: the host's value codec *)
From Coq Require Import ZArith String List Bool Lia.
Import ListNotations.
From Verif Require Import Wasm StdEnv WasmTac Spec Mem MemFacts Bytes SpecBytes SpecUtf8 Clar Codec Rep RepFacts ReadProofs WriteProofs ArgProofs Gen.
Open Scope string_scope.
Open Scope list_scope.
Open Scope Z_scope.

(** the most memory a value of a type takes outside its own words *)
Definition max_payload (t : ty) : Z := get_type_in_memory_size t true - get_type_size t.

(** two areas, [n] bytes at [a] and [k] bytes at [b], do not overlap *)
Definition apart (a n b k : Z) : Prop := a + n <= b \/ b + k <= a.

(** [m'] has the same size as [m] and the same bytes outside the two areas *)
Definition unchanged_outside (m m' : mem) (a n b k : Z) : Prop :=
  msize m' = msize m /\
  forall x, ~ (a <= x < a + n) -> ~ (b <= x < b + k) -> rd m' x = rd m x.
(** the two areas have the same bytes in [m] and [m'] *)
Definition same_inside (m m' : mem) (a n b k : Z) : Prop :=
  msize m' = msize m /\ forall x, a <= x < a + n \/ b <= x < b + k -> rd m' x = rd m x.

Lemma write_good t v m off ioff : ty_ok t -> no_trait t -> has_type t v -> msize m < 2 ^ 31 ->
  0 <= off -> off + get_type_size t <= msize m -> 0 <= ioff -> ioff + max_payload t <= msize m ->
  apart off (get_type_size t) ioff (max_payload t) ->
  payload t v <= max_payload t /\
  exists m' ws, write_to_wasm m t off ioff v true = Some (m', get_type_size t, payload t v) /\
    only2 m m' off (get_type_size t) ioff (payload t v) /\
    words_at m' off ws /\ rep m' (fun x => ioff <= x < ioff + payload t v) t v ws.
Proof.
  intros Hok Hnt Ht Hm H0 H1 H2 H3 H4. pose proof (payload_bound t Hok v Ht) as Hb. unfold max_payload, apart in *. split; [lia|].
  apply write_ok; auto; lia.
Qed.

(** ** C26 *)
(** A written value is read back equal, whatever the program does elsewhere in
    memory between the write and the read. *)
Theorem C26_host_roundtrip_partial : forall t v m off ioff,
  ty_ok t -> no_trait t -> has_type t v -> msize m < 2 ^ 31 ->
  0 <= off -> off + get_type_size t <= msize m ->
  0 <= ioff -> ioff + max_payload t <= msize m ->
  apart off (get_type_size t) ioff (max_payload t) ->
  exists m' w iw, write_to_wasm m t off ioff v true = Some (m', w, iw) /\
    forall m'', same_inside m' m'' off w ioff iw -> read_from_wasm_indirect m'' t off = Some v.
Proof.
  intros t v m off ioff Hok Hnt Ht Hm H0 H1 H2 H3 H4.
  destruct (write_good t v m off ioff Hok Hnt Ht Hm H0 H1 H2 H3 H4) as (Hp & m' & ws & E & (S1 & R1) & Hw & Hr).
  exists m', (get_type_size t), (payload t v). split; [exact E|]. intros m'' (S2 & R2).
  apply (read_indirect_back m'' (fun x => ioff <= x < ioff + payload t v) ltac:(change h32 with (2 ^ 31); lia) t v ws off); auto.
  - eapply rep_frame; [exact S2| | |exact Hr]; cbn beta; auto.
  - apply (holds_ext m' m''); [exact S2| |exact Hw]. intros x Hx. fold (words_bytes ws) in Hx.
    rewrite (rep_words_len _ _ _ _ _ Hr) in Hx. apply R2. lia.
Qed.
Print Assumptions C26_host_roundtrip_partial.

(** The reader does not depend on who stored the value: any memory and words
    that represent a value (see Rep.v) are read as that value. *)
Theorem C26_reader_complete : forall m P t v ws off,
  ty_ok t -> has_type t v -> msize m < 2 ^ 31 ->
  rep m P t v ws -> words_at m off ws -> read_from_wasm_indirect m t off = Some v.
Proof. intros m P t v ws off Hok Ht Hm Hr Hw. eapply read_indirect_back; eauto. Qed.
Print Assumptions C26_reader_complete.

(** A representation determines the value: the same words in the same memory
    never stand for two different values of a type. *)
Theorem C26_representation_unambiguous : forall m P P' t v v' ws,
  ty_ok t -> has_type t v -> has_type t v' -> msize m < 2 ^ 31 ->
  rep m P t v ws -> rep m P' t v' ws -> v = v'.
Proof.
  intros m P P' t v v' ws Hok Ht Ht' Hm Hr Hr'.
  pose proof (ret_back m P Hm t Hok v ws [] Hr Ht) as E. pose proof (ret_back m P' Hm t Hok v' ws [] Hr' Ht') as E'.
  rewrite E in E'. congruence.
Qed.
Print Assumptions C26_representation_unambiguous.

(** Trait references are excluded above because the writer has no case for
    them: it fails on every trait reference, wherever it is asked to write it. *)
Theorem C26_trait_reference_refuted : forall m off ioff p i r,
  write_to_wasm m (TTrait i) off ioff (CCallable p i) r = None.
Proof. reflexivity. Qed.
Print Assumptions C26_trait_reference_refuted.

Definition ex_ty : ty :=
  TTuple [("a", TList 3 (TTuple [("k", TBuff 4); ("o", TOpt TInt)])); ("b", TResp (TUtf8 5) TBool); ("c", TPrin)].
Definition ex_val : value :=
  CTuple [("a", CList [CTuple [("k", CBuff [1; 2; 3]); ("o", CSome (CInt (-7)))]; CTuple [("k", CBuff []); ("o", CNone)]]);
          ("b", COk (CUtf8 [955; 128512])); ("c", CPrin (PCon 22 (repeat 9 20) [102; 111; 111]))].
Definition blank (n : Z) : mem := mkmem (fun _ => 0) n.
Example C26_ex_hyps : ty_ok ex_ty /\ no_trait ex_ty /\ has_type ex_ty ex_val /\ get_type_size ex_ty = 32 /\ max_payload ex_ty = 266.
Proof.
  split; [|split; [cbn; tauto|split; [|split; reflexivity]]].
  - cbn. unfold max_value_size. repeat match goal with |- _ /\ _ => split end; try discriminate; try lia; try exact I;
      repeat constructor; cbn; intuition discriminate.
  - assert (Hc : contract_name [102; 111; 111]) by (right; exists 102, [111; 111]; auto).
    cbn -[contract_name scalar]. repeat match goal with |- _ /\ _ => split end; try exact Hc; try reflexivity; try lia; try exact I;
      repeat (first [apply Forall_nil | apply Forall_cons]); try (unfold scalar; lia).
    all: unfold prin_std_ok; repeat match goal with |- _ /\ _ => split end; try reflexivity; try exact I; try lia; repeat (first [apply Forall_nil | apply Forall_cons]); try lia; cbn; lia.

Qed.
Example C26_ex : match write_to_wasm (blank 65536) ex_ty 100 200 ex_val true with
  | Some (m', w, iw) => w = 32 /\ iw = 92 /\ read_from_wasm_indirect m' ex_ty 100 = Some ex_val
  | None => False
  end.
Proof. vm_compute. auto. Qed.

(** ** C27 *)
(** The writer reports the type's fixed size for the words and at most the
    type's maximum for the rest, and writes nowhere else. *)
Theorem C27_sizes_written : forall t v m off ioff,
  ty_ok t -> no_trait t -> has_type t v -> msize m < 2 ^ 31 ->
  0 <= off -> off + get_type_size t <= msize m ->
  0 <= ioff -> ioff + max_payload t <= msize m ->
  apart off (get_type_size t) ioff (max_payload t) ->
  exists m' iw, write_to_wasm m t off ioff v true = Some (m', get_type_size t, iw) /\
    0 <= iw /\ get_type_size t + iw <= get_type_in_memory_size t true /\
    unchanged_outside m m' off (get_type_size t) ioff iw.
Proof.
  intros t v m off ioff Hok Hnt Ht Hm H0 H1 H2 H3 H4.
  destruct (write_good t v m off ioff Hok Hnt Ht Hm H0 H1 H2 H3 H4) as (Hp & m' & ws & E & (S1 & R1) & Hw & Hr).
  exists m', (payload t v). split; [exact E|]. split; [apply payload_nonneg|]. split; [unfold max_payload in Hp; lia|].
  split; [exact S1|]. intros x Hx Hx'. apply R1; lia.
Qed.
Print Assumptions C27_sizes_written.

(** The fixed size is the number of bytes of the Wasm values of the type, each
    stored at its natural width. *)
Theorem C27_fixed_size_is_word_size : forall t m P v ws, rep m P t v ws ->
  get_type_size t = fold_right (fun w n => Z.of_nat (length (word_bytes w)) + n) 0 ws /\ length ws = length (clar2wasm_ty t).
Proof.
  intros t m P v ws Hr. split; [|eapply rep_len; eauto]. rewrite <- (rep_words_len _ _ _ _ _ Hr). unfold words_bytes. clear Hr.
  induction ws as [|w ws IH]; [reflexivity|]. cbn [flat_map fold_right]. rewrite app_length, Nat2Z.inj_add, IH. reflexivity.
Qed.
Print Assumptions C27_fixed_size_is_word_size.

(** The maximum is tight for buffers, strings and lists of them: some value fills it. *)
Theorem C27_maximum_reached : forall n, 0 <= n <= max_value_size -> exists v,
  has_type (TBuff n) v /\ forall m off ioff, 0 <= off -> off + 8 <= msize m -> 0 <= ioff -> ioff + n <= msize m ->
    exists m', write_to_wasm m (TBuff n) off ioff v true = Some (m', 8, get_type_in_memory_size (TBuff n) true - 8).
Proof.
  intros n Hn. exists (CBuff (repeat 0 (Z.to_nat n))). split.
  - cbn [has_type]. rewrite repeat_length. split; [lia|]. apply Forall_forall. intros x Hx. apply repeat_spec in Hx. lia.
  - intros m off ioff H0 H1 H2 H3. cbn [write_to_wasm get_type_in_memory_size].
    assert (Hl : Z.of_nat (length (repeat 0 (Z.to_nat n))) = n) by (rewrite repeat_length; lia). rewrite Hl.
    rewrite hwrite_ok by lia. unfold write_repr, i32_bytes.
    rewrite hwrite_ok by (rewrite ?msize_write, ?len_le_bytes; lia).
    rewrite hwrite_ok by (rewrite ?msize_write, ?len_le_bytes; lia).
    cbn [fst snd]. eexists. replace (n + 8 - 8) with n by lia. reflexivity.
Qed.
Print Assumptions C27_maximum_reached.

Example C27_ex : get_type_in_memory_size ex_ty true = 298 /\ clar2wasm_ty ex_ty = [T32; T32; T32; T32; T32; T32; T32; T32].
Proof. vm_compute. auto. Qed.

(** ** C42 *)
(** Reading a sequence of Wasm values as a sequence of Clarity values, with the
    host's own conversion of results. *)
Fixpoint read_results (m : mem) (ts : list ty) (ws : list val) : option (list value) :=
  match ts with
  | [] => match ws with [] => Some [] | _ => None end
  | t :: ts =>
      match wasm_to_clarity_value m t ws with
      | Some (Some v, n) => match read_results m ts (skipn n ws) with Some vs => Some (v :: vs) | None => None end
      | _ => None
      end
  end.

Lemma read_results_ok m P (Hm : msize m < h32) ts vs ws : Forall ty_ok ts -> Forall2 has_type ts vs -> rep_list m P ts vs ws ->
  read_results m ts ws = Some vs.
Proof.
  intros Hok Ht Hr. revert Hok Ht. induction Hr as [|t ts v vs ws ws' Hr Hrs IH]; intros Hok Ht; [reflexivity|].
  inversion Hok; subst. inversion Ht; subst. cbn [read_results]. rewrite (ret_back m P Hm t H1 v ws ws' Hr H4).
  rewrite skipn_app_len by reflexivity. rewrite IH; auto.
Qed.

Lemma rep_list_typed m P ts vs ws : rep_list m P ts vs ws -> Forall2 wtyped (flat_map clar2wasm_ty ts) ws.
Proof.
  induction 1 as [|t ts v vs ws ws' Hr Hrs IH]; [constructor|]. cbn [flat_map]. apply Forall2_app; [eapply rep_typed; eauto|exact IH].
Qed.

Lemma reserve_mono t : ty_ok t -> forall off, off <= snd (reserve_space_for_return off t) /\
  map (fun w => match w with VI32 _ => T32 | VI64 _ => T64 | VV128 _ => T128 end) (fst (reserve_space_for_return off t)) = clar2wasm_ty t.
Proof.
  induction t using ty_ind'; intros Hok off; cbn [reserve_space_for_return fst snd map clar2wasm_ty];
    try (split; [lia|reflexivity]); try (split; [|reflexivity]; cbn [get_type_in_memory_size ty_ok] in *; lia).
  - split; [|reflexivity]. pose proof (inmem_nonneg (TList n t) false Hok). lia.
  - cbn [ty_ok] in Hok. specialize (IHt Hok off). destruct (reserve_space_for_return off t) as [vs o]. cbn [fst snd map] in *.
    destruct IHt as (H1 & H2). rewrite H2. split; [lia|reflexivity].
  - cbn [ty_ok] in Hok. destruct Hok as (Hok1 & Hok2). specialize (IHt1 Hok1 off). destruct (reserve_space_for_return off t1) as [vs o].
    specialize (IHt2 Hok2 o). destruct (reserve_space_for_return o t2) as [vs' o']. cbn [fst snd map] in *.
    rewrite map_app. destruct IHt1 as (H1 & ->), IHt2 as (H3 & ->). split; [lia|reflexivity].
  - rewrite ty_ok_tuple in Hok. destruct Hok as (_ & _ & Hok).
    match goal with |- context [?f fs off] => set (go := f) end.
    assert (HG : off <= snd (go fs off) /\ map (fun w => match w with VI32 _ => T32 | VI64 _ => T64 | VV128 _ => T128 end) (fst (go fs off)) =
       flat_map (fun f => clar2wasm_ty (snd f)) fs); [|exact HG].
    revert off. induction H as [|[k t] fs Hf H IH]; intros off; [cbn; split; [lia|reflexivity]|].
    cbn [fields_ok] in Hok. destruct Hok as (Hok1 & Hok2). cbn [snd] in Hf. cbn [go]. fold go.
    specialize (Hf Hok1 off). destruct (reserve_space_for_return off t) as [vs o]. specialize (IH Hok2 o).
    destruct (go fs o) as [vs' o']. cbn [fst snd flat_map] in *. rewrite map_app. destruct Hf as (H1 & ->), IH as (H3 & ->).
    split; [lia|reflexivity].
Qed.

(** total maximum size of the arguments of a call *)
Definition args_room (ts : list ty) : Z := fold_right (fun t n => get_type_in_memory_size t true + n) 0 ts.

Lemma plist_bound ts : Forall ty_ok ts -> forall vs, Forall2 has_type ts vs -> plist ts vs <= args_room ts.
Proof.
  induction 1 as [|t ts Ht H IH]; intros vs Hv; inversion Hv; subst; [cbn; lia|].
  cbn [plist combine fold_right fst snd args_room]. pose proof (payload_bound t Ht y H2). pose proof (size_nonneg t). specialize (IH l' H4).
  unfold plist, args_room in IH. lia.
Qed.

(** Given room above the stack pointer [sp], the host's argument passing
    succeeds.  The function then starts with one Wasm value of the declared
    type per word of each parameter, a stack pointer [sp'] at or above [sp],
    memory below [sp] untouched; and as long as it leaves the bytes between
    [sp] and [sp'] alone, returning the values it was given makes the host
    reconstruct exactly the Clarity values passed. *)
Theorem C42_arguments_survive_partial : forall ts vs rt m sp,
  Forall ty_ok ts -> ty_ok rt -> Forall passable ts -> Forall2 has_type ts vs -> msize m < 2 ^ 31 ->
  0 <= sp -> sp + args_repr_size ts + args_room ts <= msize m ->
  exists ws m' sp', call_setup m sp ts vs rt = Some (ws, m', sp') /\
    sp <= sp' /\ Forall2 wtyped (flat_map clar2wasm_ty ts) ws /\
    msize m' = msize m /\ (forall x, x < sp -> rd m' x = rd m x) /\
    forall m'', msize m'' = msize m -> (forall x, sp <= x < sp' -> rd m'' x = rd m' x) -> read_results m'' ts ws = Some vs.
Proof.
  intros ts vs rt m sp Hok Hrt Hp Ht Hm H0 H1.
  pose proof (alist_range ts vs) as Ha. pose proof (alist_bound ts Hok vs Ht) as Hb. pose proof (plist_bound ts Hok vs Ht) as Hpl.
  destruct (pass_args_ok ts Hok Hp vs m sp (sp + args_repr_size ts) Ht H0 ltac:(lia) ltac:(lia) ltac:(lia) ltac:(lia) ltac:(lia))
    as (ws & m' & E & (S1 & R1) & Hr).
  unfold call_setup. rewrite E. set (io := sp + args_repr_size ts + (plist ts vs - alist ts vs)) in *.
  pose proof (reserve_mono rt Hrt io) as (Hio & _).
  exists ws, m', (snd (reserve_space_for_return io rt)). split; [reflexivity|]. split; [lia|].
  split; [eapply rep_list_typed; exact Hr|]. split; [exact S1|]. split.
  - intros x Hx. apply R1; lia.
  - intros m'' S2 R2. eapply read_results_ok; [|exact Hok|exact Ht|].
    + change h32 with (2 ^ 31). lia.
    + eapply (rep_list_frame m' m''); [lia| | |exact Hr]; [|intros x Hx; exact Hx].
      cbn beta. unfold rng. intros x Hx. apply R2. lia.
Qed.
Print Assumptions C42_arguments_survive_partial.

(** the result slots have the result type's Wasm types *)
Theorem C42_result_slots : forall t off, ty_ok t ->
  map (fun w => match w with VI32 _ => T32 | VI64 _ => T64 | VV128 _ => T128 end) (fst (reserve_space_for_return off t)) = clar2wasm_ty t.
Proof. intros t off Hok. apply (reserve_mono t Hok off). Qed.
Print Assumptions C42_result_slots.

Lemma no_room bs rt : Z.of_nat (length bs) = 65536 ->
  call_setup (instance_mem (compile [])) (initial_stack_pointer (compile [])) [TBuff 65536] [CBuff bs] rt = None.
Proof.
  intros Hl. unfold call_setup. cbn [pass_args pass_argument_to_wasm]. unfold hwrite. rewrite Hl.
  change (msize (instance_mem (compile []))) with 65536. reflexivity.
Qed.
(** Room is not guaranteed: the declared memory does not count the arguments.
    A contract whose only function takes a buffer (and uses no memory itself)
    gets one page, and passing a 65536-byte buffer to it fails. *)
Theorem C42_argument_room_refuted : exists ts vs rt,
  Forall ty_ok ts /\ Forall passable ts /\ Forall2 has_type ts vs /\
  let g := compile [] in
  call_setup (instance_mem g) (initial_stack_pointer g) ts vs rt = None.
Proof.
  exists [TBuff 65536], [CBuff (repeat 0 (Z.to_nat 65536))], TBool.
  assert (Hl : Z.of_nat (length (repeat 0 (Z.to_nat 65536))) = 65536) by (rewrite repeat_length; lia).
  split; [constructor; [cbn [ty_ok]; unfold max_value_size; lia|constructor]|]. split; [constructor; [exact I|constructor]|]. split.
  - constructor; [|constructor]. cbn [has_type]. split; [lia|].
    apply Forall_forall. intros x Hx. apply repeat_spec in Hx. lia.
  - cbv zeta. apply no_room, Hl.
Qed.
Print Assumptions C42_argument_room_refuted.

(** Lists of trait references cannot be passed: the call fails whatever the memory. *)
Theorem C42_trait_list_refuted : forall m sp i p rt, has_type (TTrait i) (CCallable p i) ->
  has_type (TList 1 (TTrait i)) (CList [CCallable p i]) /\
  call_setup m sp [TList 1 (TTrait i)] [CList [CCallable p i]] rt = None.
Proof. intros m sp i p rt H. split; [split; [cbn; lia|constructor; [exact H|constructor]]|reflexivity]. Qed.
Print Assumptions C42_trait_list_refuted.

Example C42_ex : match call_setup (blank 65536) 2000 [ex_ty; TUInt; TTrait [1]]
    [ex_val; CUInt (2 ^ 100 + 3); CCallable (PCon 1 (repeat 3 20) [97]) [1]] ex_ty with
  | Some (ws, m', sp') => length ws = 12%nat /\ sp' = 2741 /\
      read_results m' [ex_ty; TUInt; TTrait [1]] ws = Some [ex_val; CUInt (2 ^ 100 + 3); CCallable (PCon 1 (repeat 3 20) [97]) [1]]
  | None => False
  end.
Proof. vm_compute. auto. Qed.
