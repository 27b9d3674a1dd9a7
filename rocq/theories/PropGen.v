(** * C34, C35, C40, C43: what the generator reserves, and how errors surface. *)
From Coq Require Import ZArith String List Bool Lia.
Import ListNotations.
From Verif Require Import Wasm Std StdEnv Spec SpecBytes SpecUtf8 Mem MemFacts Bytes Gen ErrMap GenProofs WasmLogic WasmTac ArithProofs ArithSpecs.
Open Scope string_scope.
Open Scope list_scope.
Open Scope Z_scope.

(** A compilation is any sequence of steps: place a literal, reserve frame
    space, ask for workspace.  [demand] is the number of bytes asked for. *)

(** Every literal can be read back, in the memory of the instantiated module,
    at the offset and length returned when it was placed, whatever was
    compiled before and after. *)
Theorem C34_literals_readable : forall before l after,
  let ss := before ++ GLit l :: after in
  Forall step_ok ss -> demand ss < 2 ^ 32 ->
  holds (instance_mem (compile ss)) (fst (placed before l)) (lit_data l) /\
  snd (placed before l) = Z.of_nat (length (lit_data l)) /\
  end_of_standard_data <= fst (placed before l) /\
  fst (placed before l) + Z.of_nat (length (lit_data l)) <= initial_stack_pointer (compile ss).
Proof.
  intros before l after ss Hok Hd.
  destruct (compile_ok ss Hok Hd) as (done0 & I0 & E1 & E2 & E3).
  unfold demand in Hd. assert (Hf : 0 <= sumz frame_of ss) by (apply frames_nonneg; auto).
  assert (Hw : 0 <= maxz work_of ss) by apply works_nonneg.
  unfold ss in Hok, Hd. rewrite sumz_app in Hd. change (sumz lit_size (GLit l :: after)) with (Z.of_nat (length (lit_data l)) + sumz lit_size after) in Hd.
  apply Forall_app in Hok as [Hok1 Hok2]. inversion_clear Hok2 as [|? ? Hl Hok3].
  pose proof (sumz_nonneg lit_size after (fun x _ => lit_size_nonneg x)).
  pose proof (sumz_nonneg lit_size before (fun x _ => lit_size_nonneg x)).
  fold ss in Hd.
  destruct (compile_from before gen0 [] ginv0 Hok1 ltac:(cbn [gen0 g_end]; lia)) as (d1 & D1 & _ & D3 & _).
  fold (compile before) in *. cbn [gen0 g_end] in D3.
  destruct (add_lit_inv (compile before) d1 l D1 Hl ltac:(lia)) as (A1 & A2 & A3 & A4 & _).
  destruct (compile_from after _ _ A1 Hok3 ltac:(lia)) as (d2 & F1 & F2 & F3 & _).
  assert (HC : compile ss = fold_left gdo after (fst (add_lit (compile before) l))).
  { unfold compile, ss. rewrite fold_left_app. reflexivity. }
  rewrite <- HC in *. unfold placed. split; [|split; [exact A2|]].
  - eapply instance_holds; [exact I0|lia|lia|lia|].
    apply in_or_app. right. apply (gi_done _ _ F1 l). apply F2. left. reflexivity.
  - destruct (gi_done _ _ F1 l _ (F2 _ (or_introl eq_refl))) as [_ Hin].
    apply (sorted_in _ _ _ _ _ (gi_sorted _ _ F1) Hin).
Qed.
Print Assumptions C34_literals_readable.

(** The standard library's own data is intact. *)
Theorem C34_standard_data_intact : forall ss o bs,
  Forall step_ok ss -> demand ss < 2 ^ 32 -> In (o, bs) std_data -> holds (instance_mem (compile ss)) o bs.
Proof.
  intros ss o bs Hok Hd Hin. destruct (compile_ok ss Hok Hd) as (d & I & E1 & E2 & E3). unfold demand in Hd.
  assert (Hf : 0 <= sumz frame_of ss) by (apply frames_nonneg; auto).
  assert (Hw : 0 <= maxz work_of ss) by apply works_nonneg.
  eapply instance_holds; [exact I|lia|lia|lia|]. apply in_or_app. auto.
Qed.
Print Assumptions C34_standard_data_intact.

(** Two placed literals occupy the same bytes of memory (and are then equal) or disjoint ones. *)
Theorem C34_literals_do_not_overlap : forall before l1 mid l2 after,
  let ss := before ++ GLit l1 :: mid ++ GLit l2 :: after in
  Forall step_ok ss -> demand ss < 2 ^ 32 ->
  let o1 := fst (placed before l1) in
  let o2 := fst (placed (before ++ GLit l1 :: mid) l2) in
  (o1 = o2 /\ lit_data l1 = lit_data l2) \/
  o1 + Z.of_nat (length (lit_data l1)) <= o2 \/ o2 + Z.of_nat (length (lit_data l2)) <= o1.
Proof.
  intros before l1 mid l2 after ss Hok Hd o1 o2. unfold demand in Hd.
  assert (Hf : 0 <= sumz frame_of ss) by (apply frames_nonneg; auto).
  assert (Hw : 0 <= maxz work_of ss) by apply works_nonneg.
  pose proof (sumz_nonneg lit_size after (fun x _ => lit_size_nonneg x)).
  pose proof (sumz_nonneg lit_size before (fun x _ => lit_size_nonneg x)).
  pose proof (sumz_nonneg lit_size mid (fun x _ => lit_size_nonneg x)).
  assert (Hs : sumz lit_size ss = sumz lit_size before + (Z.of_nat (length (lit_data l1)) + (sumz lit_size mid + (Z.of_nat (length (lit_data l2)) + sumz lit_size after)))).
  { unfold ss. rewrite sumz_app. f_equal. change (GLit l1 :: mid ++ GLit l2 :: after) with ([GLit l1] ++ mid ++ [GLit l2] ++ after).
    rewrite !sumz_app. cbn [sumz fold_right lit_size]. lia. }
  unfold ss in Hok. apply Forall_app in Hok as [Hok1 Hok2]. inversion_clear Hok2 as [|? ? Hl1 Hok3].
  apply Forall_app in Hok3 as [Hok3 Hok4]. inversion_clear Hok4 as [|? ? Hl2 Hok5].
  destruct (compile_from before gen0 [] ginv0 Hok1 ltac:(cbn [gen0 g_end]; lia)) as (d1 & D1 & _ & D3 & _).
  fold (compile before) in *. cbn [gen0 g_end] in D3.
  destruct (add_lit_inv (compile before) d1 l1 D1 Hl1 ltac:(lia)) as (A1 & A2 & A3 & A4 & _).
  destruct (compile_from mid _ _ A1 Hok3 ltac:(lia)) as (d2 & F1 & F2 & F3 & _).
  assert (HC : compile (before ++ GLit l1 :: mid) = fold_left gdo mid (fst (add_lit (compile before) l1))).
  { unfold compile. rewrite fold_left_app. reflexivity. }
  rewrite <- HC in *.
  destruct (add_lit_inv _ d2 l2 F1 Hl2 ltac:(lia)) as (B1 & B2 & B3 & B4 & _).
  eapply sorted_pair.
  - apply (gi_sorted _ _ B1).
  - apply (gi_done _ _ B1 l1). right. apply F2. left. reflexivity.
  - apply (gi_done _ _ B1 l2). left. reflexivity.
Qed.
Print Assumptions C34_literals_do_not_overlap.

(** Strings, identifiers and byte tables are stored once. *)
Theorem C34_equal_literals_share : forall before l mid,
  Forall step_ok (before ++ GLit l :: mid) -> demand (before ++ GLit l :: mid ++ [GLit l]) < 2 ^ 32 ->
  lit_key l <> None ->
  placed (before ++ GLit l :: mid) l = placed before l /\
  compile (before ++ GLit l :: mid ++ [GLit l]) = compile (before ++ GLit l :: mid).
Proof.
  intros before l mid Hok Hd Hk. destruct (lit_key l) as [k|] eqn:Hkey; [|congruence]. unfold demand in Hd.
  set (ss := before ++ GLit l :: mid ++ [GLit l]) in *.
  assert (Hok' : Forall step_ok ss).
  { unfold ss. apply Forall_app in Hok as [Hok1 Hok2]. inversion_clear Hok2 as [|? ? H1 H2]. apply Forall_app. split; [auto|].
    constructor; [auto|]. apply Forall_app. split; [auto|]. constructor; [auto|constructor]. }
  assert (Hf : 0 <= sumz frame_of ss) by (apply frames_nonneg; auto).
  assert (Hw : 0 <= maxz work_of ss) by apply works_nonneg.
  pose proof (sumz_nonneg lit_size before (fun x _ => lit_size_nonneg x)).
  pose proof (sumz_nonneg lit_size mid (fun x _ => lit_size_nonneg x)).
  assert (Hs : sumz lit_size ss = sumz lit_size before + (Z.of_nat (length (lit_data l)) + (sumz lit_size mid + Z.of_nat (length (lit_data l))))).
  { unfold ss. rewrite sumz_app. f_equal. change (GLit l :: mid ++ [GLit l]) with ([GLit l] ++ mid ++ [GLit l]).
    rewrite !sumz_app. cbn [sumz fold_right lit_size]. lia. }
  apply Forall_app in Hok as [Hok1 Hok2]. inversion_clear Hok2 as [|? ? Hl Hok3].
  destruct (compile_from before gen0 [] ginv0 Hok1 ltac:(cbn [gen0 g_end]; lia)) as (d1 & D1 & _ & D3 & _).
  fold (compile before) in *. cbn [gen0 g_end] in D3.
  destruct (add_lit_inv (compile before) d1 l D1 Hl ltac:(lia)) as (A1 & A2 & A3 & A4 & _).
  destruct (compile_from mid _ _ A1 Hok3 ltac:(lia)) as (d2 & F1 & F2 & F3 & _).
  assert (HC : compile (before ++ GLit l :: mid) = fold_left gdo mid (fst (add_lit (compile before) l))).
  { unfold compile. rewrite fold_left_app. reflexivity. }
  rewrite <- HC in *.
  pose proof (gi_key _ _ F1 l _ k (F2 _ (or_introl eq_refl)) Hkey) as Hg.
  assert (HA : add_lit (compile (before ++ GLit l :: mid)) l = (compile (before ++ GLit l :: mid), (fst (placed before l), Z.of_nat (length (lit_data l))))).
  { unfold add_lit at 1. rewrite Hkey, Hg. rewrite hit_len by (unfold end_of_standard_data in *; lia). reflexivity. }
  split.
  - unfold placed at 1. rewrite HA. cbn [snd]. unfold placed in *. rewrite <- A2. destruct (snd (add_lit (compile before) l)); reflexivity.
  - unfold ss. change (before ++ GLit l :: mid ++ [GLit l]) with (before ++ (GLit l :: mid) ++ [GLit l]). rewrite app_assoc.
    unfold compile at 1. rewrite fold_left_app. fold (compile (before ++ GLit l :: mid)). cbn [fold_left gdo]. rewrite HA. reflexivity.
Qed.
Print Assumptions C34_equal_literals_share.

(** Non-vacuity: a compilation with an identifier, the ASCII text of the same
    bytes, a UTF-8 string, an integer, a principal and a repeated literal. *)
Definition c34_steps : list gstep :=
  [GLit (LIdent [97; 98]); GLit (LAscii [97; 98]); GLit (LUtf8 [955]); GFrame 100; GLit (LInt (-2));
   GLit (LPrin 22 (repeat 7 20) [102]); GWork 64; GLit (LAscii [97; 98]); GLit (LBytes [])].
Example C34_ex_ok : Forall step_ok c34_steps /\ demand c34_steps < 2 ^ 32.
Proof.
  split; [|vm_compute; reflexivity]. unfold c34_steps.
  repeat constructor; cbn; unfold scalar, is_i128; try lia; try discriminate.
Qed.
Example C34_ex_offsets : placements gen0 c34_steps =
  [(LIdent [97; 98], 1352); (LAscii [97; 98], 1354); (LUtf8 [955], 1356); (LInt (-2), 1360);
   (LPrin 22 (repeat 7 20) [102], 1376); (LAscii [97; 98], 1354); (LBytes [], 1399)].
Proof. vm_compute. reflexivity. Qed.
(** The hypothesis on identifiers matters: were an identifier allowed to start
    with a double quote, it could be confused with the text of an ASCII literal. *)
Example C34_quoted_identifier_clash :
  placed [GLit (LIdent [34; 97; 34])] (LAscii [97]) = (1352, 1) /\
  bytes_at (instance_mem (compile [GLit (LIdent [34; 97; 34]); GLit (LAscii [97])])) 1352 1 <> [97].
Proof. split; [vm_compute; reflexivity|]. vm_compute. discriminate. Qed.

(** ** C35 *)
(** The declared memory covers the literals, every reserved frame and the
    largest workspace, and is the smallest number of pages doing so. *)
Theorem C35_pages_sufficient_and_least_partial : forall ss,
  Forall step_ok ss -> demand ss < 2 ^ 32 ->
  let g := compile ss in
  let need := initial_stack_pointer g + sumz frame_of ss + maxz work_of ss in
  need <= memory_pages g * 65536 /\ (memory_pages g - 1) * 65536 < need /\
  msize (instance_mem g) = memory_pages g * 65536 /\
  (forall b l a, ss = b ++ GLit l :: a -> fst (placed b l) + Z.of_nat (length (lit_data l)) <= initial_stack_pointer g).
Proof.
  intros ss Hok Hd g need. destruct (compile_ok ss Hok Hd) as (d & I & E1 & E2 & E3). fold g in I, E1, E2, E3.
  assert (Hf : 0 <= sumz frame_of ss) by (apply frames_nonneg; auto).
  assert (Hw : 0 <= maxz work_of ss) by apply works_nonneg.
  pose proof (gi_lo _ _ I) as Hlo. unfold end_of_standard_data in Hlo. unfold demand in Hd.
  destruct (pages_cover g) as [P1 P2]; try lia. cbv zeta in P1, P2.
  unfold need, initial_stack_pointer in *. rewrite E2, E3 in *. repeat split; try lia.
  - unfold instance_mem, init_mem. rewrite msize_fold. reflexivity.
  - intros b l a Hss. pose proof (C34_literals_readable b l a) as H. cbv zeta in H. rewrite <- Hss in H.
    apply H; auto.
Qed.
Print Assumptions C35_pages_sufficient_and_least_partial.

(** The bound on the total is needed: the u32 sum wraps (release build) and the
    module would declare far too little memory. *)
Theorem C35_wraps_refuted : exists ss, Forall step_ok ss /\ 2 ^ 32 <= demand ss /\
  memory_pages (compile ss) * 65536 < initial_stack_pointer (compile ss) + sumz frame_of ss + maxz work_of ss.
Proof.
  exists [GFrame 2147483647; GFrame 2147483647; GFrame 100]. split; [repeat constructor; cbn; lia|].
  split; vm_compute; [discriminate|reflexivity].
Qed.
Print Assumptions C35_wraps_refuted.
Example C35_ex : memory_pages (compile c34_steps) = 1 /\ memory_pages (compile (c34_steps ++ [GWork 65536])) = 2.
Proof. vm_compute. auto. Qed.

(** ** C40: how runtime errors surface to the caller *)

(** the globals of standard.wat (lines 12-30) exist in every store of a compiled contract *)
Definition has_globals {HS} (st : store HS) : Prop :=
  forall n v, In (n, v) std_globals -> exists z, gget (sglob st) n = Some (VI32 z).

Lemma gget_gset_same g n v w : gget g n = Some w -> gget (gset g n v) n = Some v.
Proof.
  induction g as [|[k u] g IH]; cbn [gget gset]; [discriminate|].
  destruct (String.eqb k n) eqn:He; cbn [gget]; rewrite He; auto.
Qed.
Lemma gget_gset_other g n k v : k <> n -> gget (gset g n v) k = gget g k.
Proof.
  intros Hn. induction g as [|[j u] g IH]; cbn [gget gset]; [reflexivity|].
  destruct (String.eqb j n) eqn:He; cbn [gget].
  - apply String.eqb_eq in He. subst. destruct (String.eqb n k) eqn:Hk; [apply String.eqb_eq in Hk; congruence|reflexivity].
  - destruct (String.eqb j k); [reflexivity|exact IH].
Qed.

(** the error documented for each code the runtime raises (error_mapping.rs 20-99,
    doc comments; codes with a payload are treated separately below) *)
Definition documented (V : Type) : list (Z * clarity_error V) :=
  [(0, RtOverflow); (1, RtUnderflow); (2, RtDivisionByZero);
   (3, RtArithmetic "log2 must be passed a positive integer");
   (4, RtArithmetic "sqrti must be passed a positive integer");
   (5, RtBadTypeConstruction); (6, RtUnwrapFailure);
   (8, RtArithmetic "Power argument to (pow ...) must be a u32 integer");
   (11, ShortExpectedNone);
   (100, CostOverflow); (101, CostOverflow); (102, CostOverflow); (103, CostOverflow); (104, CostOverflow)].

(** calling [f args] makes the host report [err] *)
Definition surfaces {HS V} (E : env HS) (rv : list Z -> mem -> Z -> option V) (f : string) (args : list val)
  (st : store HS) (err : clarity_error V) : Prop :=
  exists k st', calls E f args st (RTrap k st') /\ resolve_error rv None k st' = Some err.

Theorem C40_abort_code_surfaces : forall {HS V} (E : env HS) rv f args st code (err : clarity_error V),
  has_globals st -> In (code, err) (documented V) -> aborts E f args st code -> surfaces E rv f args st err.
Proof.
  intros HS V E rv f args st code err Hg Hin Ha. exists TUnreachable, (with_glob st (gset (sglob st) "runtime-error-code" (VI32 code))).
  split; [exact Ha|]. destruct (Hg "runtime-error-code" (VI32 4294967295)) as [z Hz]; [cbn; auto|].
  cbn [resolve_error]. unfold from_runtime_error_code, get_global_i32. cbn [sglob with_glob].
  rewrite (gget_gset_same _ _ _ _ Hz).
  cbn [documented In] in Hin.
  repeat (destruct Hin as [Hin|Hin]; [injection Hin as <- <-; reflexivity|]). contradiction.
Qed.
Print Assumptions C40_abort_code_surfaces.

(** End to end: what the caller of the arithmetic operators sees. *)
Theorem C40_arithmetic_errors_surface : forall {HS V} (E : env HS) (rv : list Z -> mem -> Z -> option V) st,
  has_std E -> has_globals st ->
  (forall a b, is_u128 a -> is_u128 b -> ~ is_u128 (a + b) -> surfaces E rv "stdlib.add-uint" (u128 a ++ u128 b) st RtOverflow) /\
  (forall a b, is_i128 a -> is_i128 b -> ~ is_i128 (a + b) -> surfaces E rv "stdlib.add-int" (i128 a ++ i128 b) st RtOverflow) /\
  (forall a b, is_i128 a -> is_i128 b -> ~ is_i128 (a - b) -> surfaces E rv "stdlib.sub-int" (i128 a ++ i128 b) st RtUnderflow) /\
  (forall a b, is_u128 a -> is_u128 b -> ~ is_u128 (a * b) -> surfaces E rv "stdlib.mul-uint" (u128 a ++ u128 b) st RtOverflow) /\
  (forall a, is_u128 a -> surfaces E rv "stdlib.div-uint" (u128 a ++ u128 0) st RtDivisionByZero) /\
  (forall a, is_u128 a -> surfaces E rv "stdlib.mod-uint" (u128 a ++ u128 0) st RtDivisionByZero) /\
  (forall a, is_i128 a -> surfaces E rv "stdlib.div-int" (i128 a ++ i128 0) st RtDivisionByZero) /\
  (forall a, is_i128 a -> surfaces E rv "stdlib.mod-int" (i128 a ++ i128 0) st RtDivisionByZero).
Proof.
  intros HS V E rv st HE Hg.
  assert (H0u : is_u128 0) by (unfold is_u128; lia). assert (H0i : is_i128 0) by (unfold is_i128; lia).
  repeat split; intros; (eapply C40_abort_code_surfaces; [exact Hg| |]).
  all: try (apply (p_add_uint E HE); auto); try (apply (p_add_int E HE); auto); try (apply (p_sub_int E HE); auto);
    try (apply (p_mul_uint E HE); auto); try (apply (p_div_uint E HE); auto); try (apply (p_mod_uint E HE); auto);
    try (apply (p_div_int E HE); auto); try (apply (p_mod_int E HE); auto).
  all: cbn; auto 20.
Qed.
Print Assumptions C40_arithmetic_errors_surface.

(** Any other trap (memory access out of bounds, ...) is reported as a failure of
    the engine, never as a Clarity error; an [unreachable] reached without a
    runtime error likewise; and a code that is not documented is never mapped
    to some Clarity error: the host stops. *)
Theorem C40_other_traps : forall {HS V} (rv : list Z -> mem -> Z -> option V) (st : store HS) k,
  k <> TUnreachable -> resolve_error rv None k st = Some (WasmRuntime k).
Proof. intros HS V rv st k Hk. destruct k; try reflexivity. congruence. Qed.
Print Assumptions C40_other_traps.

Definition payload_codes : list Z := [7; 9; 10; 12; 13; 14; 15].
Lemma error_map_codes c : error_map_of c = NotMapped \/ c = -1 \/
  In c (payload_codes ++ [0; 1; 2; 3; 4; 5; 6; 8; 11; 100; 101; 102; 103; 104]).
Proof.
  destruct c as [|p|p]; [right; right; cbn; auto 30| |].
  all: repeat match goal with p : positive |- _ => destruct p; try (left; reflexivity); try (right; left; reflexivity) end.
  all: right; right; cbn; auto 30.
Qed.
Theorem C40_unknown_codes : forall {HS V} (rv : list Z -> mem -> Z -> option V) (st : store HS) z,
  gget (sglob st) "runtime-error-code" = Some (VI32 z) -> 0 <= z < 2 ^ 32 ->
  ~ In z payload_codes -> ~ In z (map fst (documented V)) ->
  resolve_error rv None TUnreachable st = if z =? 2 ^ 32 - 1 then Some (WasmRuntime TUnreachable) else None.
Proof.
  intros HS V rv st z Hz Hr H1 H2. cbn [resolve_error]. unfold from_runtime_error_code, get_global_i32. rewrite Hz.
  change (2 ^ 32) with m32 in *.
  assert (Hc : sgn32 z = if z <? h32 then z else z - m32) by reflexivity.
  destruct (error_map_codes (sgn32 z)) as [H|[H|H]].
  - rewrite H. destruct (z =? m32 - 1) eqn:He; [|reflexivity]. apply Z.eqb_eq in He. subst z. discriminate H.
  - rewrite H. destruct (z =? m32 - 1) eqn:He; [reflexivity|]. destruct (z <? h32) eqn:Hl; lia.
  - exfalso. change [0; 1; 2; 3; 4; 5; 6; 8; 11; 100; 101; 102; 103; 104] with (map fst (documented V)) in H.
    assert (Hp : 0 <= sgn32 z).
    { assert (HF : Forall (fun c => 0 <= c) (payload_codes ++ map fst (documented V))) by (repeat constructor; cbn; lia).
      rewrite Forall_forall in HF. apply HF. exact H. }
    assert (sgn32 z = z) by (destruct (z <? h32) eqn:Hl; lia). rewrite H0 in H. apply in_app_iff in H. tauto.
Qed.
Print Assumptions C40_unknown_codes.
Example C40_ex : has_globals blank_store /\
  surfaces std_env (fun _ _ _ => @None unit) "stdlib.div-uint" (u128 7 ++ u128 0) blank_store RtDivisionByZero.
Proof.
  assert (Hg : has_globals blank_store).
  { intros n v Hin. cbn in Hin. repeat (destruct Hin as [Hin|Hin]; [injection Hin as <- <-; eexists; reflexivity|]). contradiction. }
  split; [exact Hg|]. apply (C40_arithmetic_errors_surface std_env _ blank_store std_env_ok Hg). unfold is_u128; lia.
Qed.

(** ** C43: argument counts *)
Definition arity_ok (c : arity_check) (expected actual : Z) : Prop :=
  match c with Exact => actual = expected | AtLeast => expected <= actual | AtMost => actual <= expected end.
Definition is_u32 (n : Z) : Prop := 0 <= n < 2 ^ 32.
Definition arity_error {V} (c : arity_check) (expected got : Z) : clarity_error V :=
  match c with
  | Exact => UncheckedIncorrectArgumentCount expected got
  | AtLeast => UncheckedRequiresAtLeast expected got
  | AtMost => UncheckedRequiresAtMost expected got
  end.

Theorem C43_accepts_exactly : forall g expected actual c, is_u32 expected -> is_u32 actual ->
  (snd (check_argument_count g expected actual c) = None <-> arity_ok c expected actual) /\
  (arity_ok c expected actual -> fst (check_argument_count g expected actual c) = g).
Proof.
  intros g e a c He Ha. unfold is_u32 in *. change (2 ^ 32) with m32 in *. unfold check_argument_count. rewrite !Z.mod_small by lia.
  destruct c; cbn [arity_ok].
  - destruct (e =? a) eqn:H; cbn [negb]; [apply Z.eqb_eq in H|apply Z.eqb_neq in H]; [split; [split; auto|auto]|].
    destruct (handle_mismatch g e a (code_of_check Exact)) as [g' is]; cbn [fst snd]. split; [split; intros; [discriminate|congruence]|congruence].
  - destruct (a <? e) eqn:H; [apply Z.ltb_lt in H|apply Z.ltb_ge in H; split; [split; auto|auto]].
    destruct (handle_mismatch g e a (code_of_check AtLeast)) as [g' is]; cbn [fst snd]. split; [split; intros; [discriminate|lia]|lia].
  - destruct (e <? a) eqn:H; [apply Z.ltb_lt in H|apply Z.ltb_ge in H; split; [split; auto|auto]].
    destruct (handle_mismatch g e a (code_of_check AtMost)) as [g' is]; cbn [fst snd]. split; [split; intros; [discriminate|lia]|lia].
Qed.
Print Assumptions C43_accepts_exactly.

Lemma map_keys ss : forall g b o, glookup (g_map (fold_left gdo ss g)) (EBytes b) = Some o ->
  (exists o', glookup (g_map g) (EBytes b) = Some o') \/ In (GLit (LBytes b)) ss.
Proof.
  induction ss as [|s ss IH]; cbn [fold_left In]; intros g b o H; [left; eauto|].
  destruct (IH _ _ _ H) as [[o' H']|H']; [|auto].
  destruct s as [l|n|n]; cbn [gdo] in H'; try (left; eexists; exact H').
  unfold add_lit in H'. destruct (lit_key l) as [k|] eqn:Hk.
  - destruct (glookup (g_map g) k); cbn [fst] in H'; [left; eauto|]. cbn [append fst g_map glookup] in H'.
    destruct (entry_eqb k (EBytes b)) eqn:He; [|left; eauto]. apply entry_eqb_eq in He. subst k.
    right. left. destruct l; cbn [lit_key] in Hk; congruence.
  - cbn [append fst g_map] in H'. left; eauto.
Qed.

Definition count_lit (n : Z) : gstep := GLit (LBytes (le4b n)).

(** memory of a running contract: the literal region is as it was at start *)
Definition literals_intact {HS} (g : gen) (st : store HS) : Prop :=
  msize (smem st) = msize (instance_mem g) /\
  forall x, 0 <= x < initial_stack_pointer g -> rd (smem st) x = rd (instance_mem g) x.

(** On a mismatch, running the emitted code makes the host report exactly the
    declared and the actual number of arguments -- provided neither count was
    already used in an earlier mismatch of the same contract. *)
Theorem C43_reports_counts_partial : forall {HS V} (E : env HS) (rv : list Z -> mem -> Z -> option V) before expected actual c after st ls k code,
  has_std E -> is_u32 expected -> is_u32 actual ->
  snd (check_argument_count (compile before) expected actual c) = Some code ->
  let ss := before ++ [count_lit expected; count_lit actual] ++ after in
  fst (check_argument_count (compile before) expected actual c) = compile (before ++ [count_lit expected; count_lit actual]) /\
  (Forall step_ok ss -> demand ss < 2 ^ 31 ->
   ~ In (count_lit expected) before -> ~ In (count_lit actual) before ->
   has_globals st -> literals_intact (compile ss) st ->
   exists st', runs E code (mkcfg ls k st) (OTrap TUnreachable st') /\
     resolve_error rv None TUnreachable st' = Some (arity_error c expected actual)).
Proof.
  intros HS V E rv before e a c after st ls k code HE He Ha Hc ss. unfold is_u32 in *. change (2 ^ 32) with m32 in *.
  assert (Hne : e <> a).
  { intros ->. unfold check_argument_count in Hc. rewrite Z.ltb_irrefl, Z.eqb_refl in Hc. destruct c; discriminate Hc. }
  assert (HM : check_argument_count (compile before) e a c =
     let '(g', is) := handle_mismatch (compile before) e a (code_of_check c) in (g', Some is)).
  { unfold check_argument_count in *. rewrite !Z.mod_small in * by lia.
    destruct (match c with Exact => negb (e =? a) | AtLeast => a <? e | AtMost => e <? a end); [reflexivity|discriminate Hc]. }
  rewrite HM in *. clear HM. unfold handle_mismatch in *.
  assert (HC : compile (before ++ [count_lit e; count_lit a]) = fst (add_lit (fst (add_lit (compile before) (LBytes (le4b e)))) (LBytes (le4b a)))).
  { unfold compile. rewrite fold_left_app. reflexivity. }
  rewrite HC.
  destruct (add_lit (compile before) (LBytes (le4b e))) as [g1 [off1 len1]] eqn:H1. cbn [fst] in HC |- *.
  destruct (add_lit g1 (LBytes (le4b a))) as [g2 [off2 len2]] eqn:H2. cbn [fst snd] in *.
  injection Hc as <-. split; [reflexivity|].
  intros Hok Hd Hf1 Hf2 Hg [HL1 HL2].
  assert (Hlen : forall n, Z.of_nat (length (le4b n)) = 4) by (intro n; unfold le4b; rewrite len_le_bytes; reflexivity).
  (* offsets *)
  assert (G1 : glookup (g_map (compile before)) (EBytes (le4b e)) = None).
  { destruct (glookup (g_map (compile before)) (EBytes (le4b e))) eqn:HG; [|reflexivity]. apply map_keys in HG as [[o' HG]|HG]; [discriminate HG|contradiction]. }
  assert (G2 : glookup (g_map (compile before)) (EBytes (le4b a)) = None).
  { destruct (glookup (g_map (compile before)) (EBytes (le4b a))) eqn:HG; [|reflexivity]. apply map_keys in HG as [[o' HG]|HG]; [discriminate HG|contradiction]. }
  destruct (compile_ok ss Hok ltac:(lia)) as (d0 & I0 & E1 & E2 & E3).
  unfold demand in Hd.
  assert (Hf : 0 <= sumz frame_of ss) by (apply frames_nonneg; auto).
  assert (Hw : 0 <= maxz work_of ss) by apply works_nonneg.
  pose proof (sumz_nonneg lit_size after (fun x _ => lit_size_nonneg x)).
  pose proof (sumz_nonneg lit_size before (fun x _ => lit_size_nonneg x)).
  assert (Hs : sumz lit_size ss = sumz lit_size before + (4 + (4 + sumz lit_size after))).
  { unfold ss. rewrite !sumz_app. cbn [sumz fold_right lit_size count_lit lit_data]. rewrite !Hlen. lia. }
  unfold end_of_standard_data in *.
  assert (Hok1 : Forall step_ok before) by (unfold ss in Hok; apply Forall_app in Hok; tauto).
  destruct (compile_from before gen0 [] ginv0 Hok1 ltac:(cbn [gen0 g_end]; unfold end_of_standard_data; lia)) as (d1 & D1 & _ & D3 & _).
  fold (compile before) in *. cbn [gen0 g_end] in D3. unfold end_of_standard_data in D3.
  unfold add_lit in H1. cbn [lit_key] in H1. rewrite G1 in H1. unfold append in H1. cbn [lit_data] in H1. rewrite Hlen in H1.
  change (4 mod m32) with 4 in H1. rewrite (Z.mod_small (g_end (compile before) + 4)) in H1 by lia.
  set (g0 := compile before) in *. injection H1 as <- <- <-.
  unfold add_lit in H2. cbn [lit_key g_map glookup] in H2.
  assert (Hk : entry_eqb (EBytes (le4b e)) (EBytes (le4b a)) = false).
  { destruct (entry_eqb (EBytes (le4b e)) (EBytes (le4b a))) eqn:HQ; [|reflexivity]. apply entry_eqb_eq in HQ.
    assert (le4b e = le4b a) by congruence. exfalso. apply Hne. apply (le_bytes_inj 4); auto. }
  rewrite Hk, G2 in H2. unfold append in H2. cbn [lit_data g_end] in H2. rewrite Hlen in H2.
  change (4 mod m32) with 4 in H2. rewrite (Z.mod_small (g_end g0 + 4 + 4)) in H2 by lia. injection H2 as H2 <- <-.
  (* placement *)
  pose proof (C34_literals_readable before (LBytes (le4b e)) (count_lit a :: after)) as R1. cbv zeta in R1.
  pose proof (C34_literals_readable (before ++ [count_lit e]) (LBytes (le4b a)) after) as R2. cbv zeta in R2.
  assert (Hss1 : before ++ GLit (LBytes (le4b e)) :: count_lit a :: after = ss) by reflexivity.
  assert (Hss2 : (before ++ [count_lit e]) ++ GLit (LBytes (le4b a)) :: after = ss) by (unfold ss; rewrite <- app_assoc; reflexivity).
  rewrite Hss1 in R1. rewrite Hss2 in R2.
  assert (Hd' : demand ss < 2 ^ 32) by (unfold demand, end_of_standard_data; lia).
  destruct (R1 Hok Hd') as (R11 & _ & R13 & R14). destruct (R2 Hok Hd') as (R21 & _ & R23 & R24). clear R1 R2.
  assert (P1 : fst (placed before (LBytes (le4b e))) = g_end g0).
  { unfold placed, add_lit. fold g0. cbn [lit_key]. rewrite G1. reflexivity. }
  assert (P2 : fst (placed (before ++ [count_lit e]) (LBytes (le4b a))) = g_end g0 + 4).
  { unfold placed. assert (HCe : compile (before ++ [count_lit e]) = fst (add_lit g0 (LBytes (le4b e)))) by (unfold compile; rewrite fold_left_app; reflexivity).
    rewrite HCe. unfold add_lit at 2. cbn [lit_key]. rewrite G1. unfold append at 1. cbn [fst lit_data]. rewrite Hlen. change (4 mod m32) with 4.
    rewrite (Z.mod_small (g_end g0 + 4)) by lia.
    unfold add_lit. cbn [lit_key g_map glookup]. rewrite Hk, G2. reflexivity. }
  rewrite P1 in *. rewrite P2 in *. cbn [lit_data] in *. rewrite Hlen in *. unfold initial_stack_pointer in *. unfold end_of_standard_data in *.
  assert (HB : holds (smem st) (g_end g0) (le4b e ++ le4b a)).
  { apply holds_app. rewrite Hlen. split.
    - apply (holds_ext (instance_mem (compile ss))); [exact HL1| |exact R11]. intros x Hx. apply HL2. rewrite Hlen in Hx. unfold initial_stack_pointer. lia.
    - apply (holds_ext (instance_mem (compile ss))); [exact HL1| |exact R21]. intros x Hx. apply HL2. rewrite Hlen in Hx. unfold initial_stack_pointer. lia. }
  destruct (Hg "runtime-error-code" (VI32 4294967295)) as [z1 Z1]; [cbn; auto|].
  destruct (Hg "runtime-error-arg-offset" (VI32 4294967295)) as [z2 Z2]; [cbn; auto|].
  destruct (Hg "runtime-error-arg-len" (VI32 4294967295)) as [z3 Z3]; [cbn; auto 10|].
  set (gl1 := gset (sglob st) "runtime-error-arg-offset" (VI32 (g_end g0))).
  set (gl2 := gset gl1 "runtime-error-arg-len" (VI32 8)).
  set (gl3 := gset gl2 "runtime-error-code" (VI32 (code_of_check c))).
  exists (with_glob st gl3). split.
  - apply wp_runs. wpure. apply wp_gset. wpure. change ((4 + 4) mod m32) with 8. apply wp_gset. wpure.
    wcall HE. apply (runtime_error_wp E HE). reflexivity.
  - assert (Q1 : gget gl3 "runtime-error-code" = Some (VI32 (code_of_check c))).
    { unfold gl3. eapply gget_gset_same. unfold gl2. rewrite gget_gset_other by discriminate. unfold gl1. rewrite gget_gset_other by discriminate. exact Z1. }
    assert (Q2 : gget gl3 "runtime-error-arg-offset" = Some (VI32 (g_end g0))).
    { unfold gl3. rewrite gget_gset_other by discriminate. unfold gl2. rewrite gget_gset_other by discriminate. unfold gl1. eapply gget_gset_same. exact Z2. }
    assert (Q3 : gget gl3 "runtime-error-arg-len" = Some (VI32 8)).
    { unfold gl3. rewrite gget_gset_other by discriminate. unfold gl2. eapply gget_gset_same. unfold gl1. rewrite gget_gset_other by discriminate. exact Z3. }
    assert (QA : get_runtime_error_arg_lengths (with_glob st gl3) = Some (e, a)).
    { unfold get_runtime_error_arg_lengths, get_global_i32. cbn [sglob smem with_glob]. rewrite Q2, Q3.
      assert (S1 : sgn32 (g_end g0) = g_end g0) by (unfold sgn32; destruct (g_end g0 <? h32) eqn:HQ; lia).
      rewrite S1. change (sgn32 8) with 8. pose proof (holds_len _ _ _ HB) as (B1 & B2 & B3). rewrite app_length, Nat2Z.inj_add, !Hlen in B2.
      unfold read_bytes_from_wasm. replace ((0 <=? g_end g0) && (0 <=? 8) && (g_end g0 + 8 <=? msize (smem st))) with true by lia.
      pose proof (holds_eq _ _ _ HB) as B4. assert (HL8 : length (le4b e ++ le4b a) = Z.to_nat 8) by (rewrite app_length; unfold le4b; rewrite !len_le_bytes; reflexivity).
      rewrite HL8 in B4. rewrite B4. unfold extract_expected_and_got.
      assert (V1 : le_val (le4b e) = e) by (unfold le4b; rewrite le_val_le_bytes; apply Z.mod_small; change (256 ^ Z.of_nat 4) with m32; lia).
      assert (V2 : le_val (le4b a) = a) by (unfold le4b; rewrite le_val_le_bytes; apply Z.mod_small; change (256 ^ Z.of_nat 4) with m32; lia).
      unfold le4b in V1, V2 |- *. cbn [le_bytes app]. cbn [le_bytes] in V1, V2. rewrite V1, V2. reflexivity. }
    cbn [resolve_error]. unfold from_runtime_error_code. unfold get_global_i32 at 1. cbn [sglob with_glob]. rewrite Q1.
    destruct c; cbn [code_of_check]; [change (sgn32 13) with 13|change (sgn32 14) with 14|change (sgn32 15) with 15]; cbn [error_map_of];
      rewrite QA; reflexivity.
Qed.
Print Assumptions C43_reports_counts_partial.

(** Full statement (without the freshness condition) and its refutation: the
    two counts are interned separately, so a second mismatch declaring the same
    number of arguments reports the count of the first one. *)
Definition c43_full : Prop :=
  forall before expected actual c after (st : store unit) code,
  is_u32 expected -> is_u32 actual ->
  snd (check_argument_count (compile before) expected actual c) = Some code ->
  let ss := before ++ [count_lit expected; count_lit actual] ++ after in
  Forall step_ok ss -> demand ss < 2 ^ 31 -> has_globals st -> literals_intact (compile ss) st ->
  exists st', runs std_env code (mkcfg [] [] st) (OTrap TUnreachable st') /\
    resolve_error (fun _ _ _ => @None unit) None TUnreachable st' = Some (arity_error c expected actual).

Definition c43_before : list gstep := [count_lit 2; count_lit 3].
Definition c43_store : store unit := mkstore (instance_mem (compile (c43_before ++ [count_lit 2; count_lit 1]))) std_globals tt.
Theorem C43_reports_counts_refuted : ~ c43_full.
Proof.
  intros H.
  destruct (H c43_before 2 1 Exact [] c43_store (match snd (check_argument_count (compile c43_before) 2 1 Exact) with Some c => c | None => [] end)) as (st' & Hr & He).
  - unfold is_u32; lia.
  - unfold is_u32; lia.
  - vm_compute. reflexivity.
  - unfold c43_before, count_lit. repeat constructor; vm_compute; easy.
  - vm_compute. reflexivity.
  - intros n v Hin. cbn in Hin. repeat (destruct Hin as [Hin|Hin]; [injection Hin as <- <-; eexists; reflexivity|]). contradiction.
  - split; [reflexivity|intros; reflexivity].
  - set (stx := with_glob c43_store (gset (gset (gset std_globals "runtime-error-arg-offset" (VI32 1352)) "runtime-error-arg-len" (VI32 8)) "runtime-error-code" (VI32 13))).
    assert (Hr' : runs std_env (match snd (check_argument_count (compile c43_before) 2 1 Exact) with Some c => c | None => [] end) (mkcfg [] [] c43_store) (OTrap TUnreachable stx)).
    { apply wp_runs. change (match snd (check_argument_count (compile c43_before) 2 1 Exact) with Some c => c | None => [] end)
        with ([Const (VI32 1352); GSet "runtime-error-arg-offset"; Const (VI32 8); GSet "runtime-error-arg-len"; Const (VI32 13); Call "stdlib.runtime-error"]).
      wpure. apply wp_gset. wpure. apply wp_gset. wpure. wcall (@std_env_ok unit). apply (runtime_error_wp std_env std_env_ok). reflexivity. }
    pose proof (runs_det _ _ _ _ _ Hr Hr') as Heq. injection Heq as ->.
    assert (Hx : resolve_error (fun _ _ _ => @None unit) None TUnreachable stx = Some (UncheckedIncorrectArgumentCount 2 3)) by (vm_compute; reflexivity).
    rewrite Hx in He. discriminate He.
Qed.
Print Assumptions C43_reports_counts_refuted.

Example C43_ex : exists code, snd (check_argument_count (compile c34_steps) 2 3 AtMost) = Some code /\
  ~ In (count_lit 2) c34_steps /\ ~ In (count_lit 3) c34_steps /\ Forall step_ok (c34_steps ++ [count_lit 2; count_lit 3]).
Proof.
  eexists. split; [vm_compute; reflexivity|]. split; [|split].
  - intro H. cbn in H. repeat (destruct H as [H|H]; [discriminate H|]). exact H.
  - intro H. cbn in H. repeat (destruct H as [H|H]; [discriminate H|]). exact H.
  - apply Forall_app. split; [apply C34_ex_ok|]. repeat constructor; vm_compute; easy.
Qed.
