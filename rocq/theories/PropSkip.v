(** * C23, C55 (and part of C25): skipping serialized values, Clarity names *)
From Coq Require Import ZArith String List Bool Lia.
Import ListNotations.
From Verif Require Import Wasm Std StdEnv WasmLogic WasmTac Spec SpecBytes SpecUtf8 Mem MemFacts Bytes ConvProofs NameProofs Utf8Dec ReadProofs Clar SpecSer SpecSkip SkipProofs PropEffects.
Open Scope string_scope.
Open Scope list_scope.
Open Scope Z_scope.

(** ** C55: check-clarity-name decides Clarity's grammar of names *)
Theorem C55_check_clarity_name : forall {HS} (E : env HS), has_std E -> forall a s st,
  holds (smem st) a s -> zlen s < 2 ^ 32 ->
  exists r, returns E "stdlib.check-clarity-name" [VI32 a; VI32 (zlen s)] st [VI32 r] /\
    (r = 1 /\ clarity_name s \/ r = 0 /\ ~ clarity_name s).
Proof.
  intros HS E HE a s st H Hl. exists (b2z (clarity_nameb s)). split.
  - apply wpf_calls. change (VI32 (zlen s)) with (vlen s). apply (check_clarity_name_wp E HE); [intros _; exact H|reflexivity|exact Hl].
  - destruct (clarity_nameb s) eqn:Hs; [left|right]; (split; [reflexivity|]).
    + apply clarity_name_iff. exact Hs.
    + intros K. apply clarity_name_iff in K. congruence.
Qed.
Print Assumptions C55_check_clarity_name.

(** ** C23: a well-formed serialized value is skipped exactly *)

(** The host's [skip_list] (linker.rs 5167-5203), asked about this list, finds its end. *)
Definition host_skips {HS} (E : env HS) (st : store HS) (e : Z) (vs : list value) : Prop :=
  efun E "skip-list" = None /\
  forall a, 0 <= a -> holds (smem st) a (u32_be (zlen vs) ++ flat_map sip005 vs) -> a + 4 + zlen (flat_map sip005 vs) <= e ->
    returns E "skip-list" [VI32 a; VI32 e] st [VI32 (a + 4 + zlen (flat_map sip005 vs))].

Theorem C23_skip_value_partial : forall {HS} (E : env HS), has_std E -> forall v a e st,
  wire v -> holds (smem st) a (sip005 v) -> a + zlen (sip005 v) <= e -> e < 2 ^ 32 -> e - a < 2 ^ 31 ->
  (forall vs, In vs (lists_in v) -> host_skips E st e vs) ->
  returns E "stdlib.skip-unknown-value" [VI32 a; VI32 e] st [VI32 (a + zlen (sip005 v))].
Proof.
  intros HS E HE v a e st Hw H H1 Hem H2 Hl. pose proof (holds_len _ _ _ H) as (H0 & _ & Hm). apply wpf_calls.
  eapply (skip_value_wp E HE st e Hem (host_skips E st e)); [|exact H0|exact Hw|exact Hl|exact H|exact H1|exact H2|reflexivity].
  intros vs (Hn & Hv). split; [exact Hn|]. intros b R _ Hb0 Hb Hb1 _ HR. apply (calls_wpf _ _ _ _ _ _ (Hv b Hb0 Hb Hb1)). exact HR.
Qed.
Print Assumptions C23_skip_value_partial.

(** ** C23, the other half: where malformed input is refused *)

(** an unknown type prefix *)
Theorem C23_unknown_prefix_partial : forall {HS} (E : env HS), has_std E -> forall a e t st,
  holds (smem st) a [t] -> 14 < t -> a <> e -> returns E "stdlib.skip-unknown-value" [VI32 a; VI32 e] st [VI32 0].
Proof.
  intros HS E HE a e t st H Ht Hae. apply holds_cons in H as (Hx1 & Hx2 & Hx3 & Hx4 & Hx5 & Hx). apply wpf_calls.
  wenter HE. wpure. wif Hc; [lia|]. clear Hc. wpure. apply wp_load; [cbn [ldbytes]; lia|]. cbn [ldbytes ldval]. rewrite Z.add_0_r, ldn1, Hx1. wpure. wif Hc; [|lia]. wpure. wret. reflexivity.
Qed.
Print Assumptions C23_unknown_prefix_partial.

(** an integer cut off by the end of the buffer; a string cut off by it, or with a
    character that is not ASCII *)
Theorem C23_truncated_integer_partial : forall {HS} (E : env HS), has_std E -> forall a e t st,
  holds (smem st) a [t] -> t = 0 \/ t = 1 -> a < e < a + 17 -> a + 17 < 2 ^ 32 -> returns E "stdlib.skip-unknown-value" [VI32 a; VI32 e] st [VI32 0].
Proof.
  intros HS E HE a e t st H Ht Hae Hb. apply holds_cons in H as (Hx1 & Hx2 & Hx3 & Hx4 & Hx5 & Hx). apply wpf_calls.
  wenter HE. wpure. wif Hc; [lia|]. clear Hc. wpure. apply wp_load; [cbn [ldbytes]; lia|]. cbn [ldbytes ldval]. rewrite Z.add_0_r, ldn1, Hx1. wpure. wif Hc; [lia|]. wnil. wpure.
  rewrite (Z.mod_small (a + 1)), (Z.mod_small (t + 5)) by lia.
  eapply (wp_callind E _ _ "skip-int128"); [reflexivity|rewrite (std_tbl _ HE); destruct Ht as [-> | ->]; reflexivity|unfold fun_types; erewrite (std_fun _ HE) by reflexivity; reflexivity|].
  cbn [length firstn rev app skipn cstore clocals]. wenter HE. wpure. rewrite (Z.mod_small (a + 1 + 16)) by lia. rewrite (proj2 (Z.leb_gt (a + 1 + 16) e)) by lia. cbn [b2z Z.eqb]. wnil. unfold qcall. wcbn. wnil. wnil. reflexivity.
Qed.
Print Assumptions C23_truncated_integer_partial.

Theorem C23_bad_ascii_partial : forall {HS} (E : env HS), has_std E -> forall a e n bs st,
  holds (smem st) a (13 :: u32_be n ++ bs) -> a + 5 + zlen bs = e -> e < 2 ^ 32 -> e - a < 2 ^ 31 -> 0 <= n < 2 ^ 31 ->
  zlen bs < n \/ ~ Forall clarity_ascii (firstn (Z.to_nat n) bs) ->
  returns E "stdlib.skip-unknown-value" [VI32 a; VI32 e] st [VI32 0].
Proof.
  intros HS E HE a e n bs st H He Hem He2 Hn Hbad. apply holds_cons in H as (Hx1 & Hx2 & Hx3 & Hx4 & Hx5 & Hx). apply holds_app in Hx as (Hy & Hx). rewrite u32_len in Hx.
  pose proof (zlen_nn bs) as Hz. pose proof (holds_len _ _ _ Hx) as (_ & _ & Hm). apply wpf_calls.
  wenter HE. wpure. wif Hc; [lia|]. clear Hc. wpure. apply wp_load; [cbn [ldbytes]; lia|]. cbn [ldbytes ldval]. rewrite Z.add_0_r, ldn1, Hx1. wpure. wif Hc; [lia|]. wnil. wpure.
  rewrite (Z.mod_small (a + 1)) by lia.
  eapply (wp_callind E _ _ "skip-string-ascii"); [reflexivity|rewrite (std_tbl _ HE); reflexivity|unfold fun_types; erewrite (std_fun _ HE) by reflexivity; reflexivity|].
  cbn [length firstn rev app skipn cstore clocals]. wenter HE. wpure. rewrite (Z.mod_small (e - (a + 1))) by lia. rewrite !sgn32_small by (change h32 with (2 ^ 31); lia).
  wif Hc2; [lia|]. wnil. wpure. wcall HE. apply (load_i32_be_wp E HE _ n); [lia|exact Hy|]. unfold qcall. wcbn. wpure.
  rewrite (Z.mod_small (a + 1 + 4)) by lia. rewrite (Z.mod_small (e - (a + 1 + 4))) by lia. rewrite !sgn32_small by (change h32 with (2 ^ 31); lia). wif Hc3.
  - wpure. wret. unfold qcall. wcbn. wnil. wnil. reflexivity.
  - wnil. wpure. assert (Hnb : n <= zlen bs) by lia. assert (Hlen : Z.of_nat (length (firstn (Z.to_nat n) bs)) = n) by (rewrite firstn_length; unfold zlen in *; lia).
    wcall HE. replace (VI32 n) with (vlen (firstn (Z.to_nat n) bs)) by (unfold vlen; rewrite Hlen; reflexivity).
    apply (is_valid_string_ascii_wp E HE); [rewrite <- (firstn_skipn (Z.to_nat n) bs) in Hx; apply holds_app in Hx as (Hx & _); exact Hx|].
    destruct (forallb asciib (firstn (Z.to_nat n) bs)) eqn:Hf.
    + exfalso. destruct Hbad as [?|Hbad]; [lia|]. apply Hbad. apply Forall_forall. intros x Hxi. apply asciib_spec. rewrite forallb_forall in Hf. apply Hf. exact Hxi.
    + cbn [b2z]. unfold qcall. wcbn. wpure. wnil. unfold qcall. wcbn. wnil. wnil. reflexivity.
Qed.
Print Assumptions C23_bad_ascii_partial.

(** ** What is not refused *)
Definition starts_with_value (bs : list Z) : Prop := exists v r, wire v /\ bs = sip005 v ++ r.
(** "malformed input is refused" *)
Definition refuses {HS} (E : env HS) : Prop := forall a bs st, holds (smem st) a bs -> bs <> [] -> a + zlen bs < 2 ^ 31 -> ~ starts_with_value bs ->
  returns E "stdlib.skip-unknown-value" [VI32 a; VI32 (a + zlen bs)] st [VI32 0].
(** "the answer is the failure marker or lies inside the buffer, further on" *)
Definition stays_inside {HS} (E : env HS) : Prop := forall a bs st p, holds (smem st) a bs -> a + zlen bs < 2 ^ 31 ->
  returns E "stdlib.skip-unknown-value" [VI32 a; VI32 (a + zlen bs)] st [VI32 p] -> p = 0 \/ a <= p <= a + zlen bs.

Definition skip_at (bs : list Z) : store unit := with_mem blank_store (write_bytes (smem blank_store) 1000 bs).
Lemma skip_at_holds bs n : (length bs <= 1000)%nat -> bytes_at (smem (skip_at bs)) 1000 n = firstn n bs -> (n <= length bs)%nat -> holds (smem (skip_at bs)) 1000 (firstn n bs).
Proof.
  intros Hl Hb Hn. pose proof (firstn_length n bs) as Hf. unfold holds. split; [lia|].
  assert (Hs : msize (smem (skip_at bs)) = 65536) by (unfold skip_at; cbn [smem with_mem]; rewrite msize_write; reflexivity). rewrite Hs. split; [lia|].
  rewrite Hf, Nat.min_l by lia. exact Hb.
Qed.
Lemma skip_result bs e p : match invoke std_env 60 "stdlib.skip-unknown-value" [VI32 1000; VI32 e] (skip_at bs) with RVals [VI32 q] _ => q =? p | _ => false end = true ->
  forall q, returns std_env "stdlib.skip-unknown-value" [VI32 1000; VI32 e] (skip_at bs) [VI32 q] -> q = p.
Proof.
  intros H q Hq. destruct (invoke std_env 60 "stdlib.skip-unknown-value" [VI32 1000; VI32 e] (skip_at bs)) as [[|[w| |] [|]] s'| | |] eqn:Hi; try discriminate H.
  assert (W := calls_compute _ 60 _ _ _ _ Hi ltac:(discriminate)). pose proof (calls_det _ _ _ _ _ _ Hq W) as C. apply Z.eqb_eq in H.
  assert (C' : Some (VI32 q) = Some (VI32 w)). { apply (f_equal (fun r => match r with RVals [x] _ => Some x | _ => None end)) in C. exact C. }
  congruence.
Qed.

(** [(some <nothing>)] : the prefix byte 10 at the end of the buffer is accepted *)
Theorem C23_refuses_refuted : ~ refuses (@std_env unit).
Proof.
  intros H. specialize (H 1000 [10] (skip_at [10])).
  assert (K := skip_result [10] 1001 1001 ltac:(vm_compute; reflexivity) 0). discriminate K. apply H.
  - apply (skip_at_holds [10] 1); [cbn; lia|vm_compute; reflexivity|cbn; lia].
  - discriminate.
  - reflexivity.
  - intros (v & r & Hw & Hv). destruct v; cbn [sip005] in Hv; try discriminate Hv;
      try (destruct p; discriminate Hv); try (destruct b; discriminate Hv).
    assert (L : (0 < length (sip005 v))%nat) by (destruct v; cbn [sip005]; try (cbn [length]; lia); destruct p; cbn [sip005_prin length]; lia).
    apply (f_equal (@length Z)) in Hv. cbn [length app] in Hv. rewrite app_length in Hv. lia.
Qed.
Print Assumptions C23_refuses_refuted.

(** a contract name running past the end of the buffer: the length byte is compared with the
    end address instead of with the number of bytes left *)
Definition c23_past : list Z := 6 :: 22 :: repeat 0 20 ++ [5; 97].
Theorem C23_past_the_end_refuted : ~ stays_inside (@std_env unit).
Proof.
  intros H. set (bs := c23_past ++ [98; 99; 100; 101]).
  assert (W : match invoke std_env 60 "stdlib.skip-unknown-value" [VI32 1000; VI32 1024] (skip_at bs) with RVals [VI32 q] _ => q =? 1028 | _ => false end = true) by (vm_compute; reflexivity).
  destruct (invoke std_env 60 "stdlib.skip-unknown-value" [VI32 1000; VI32 1024] (skip_at bs)) as [[|[w| |] [|]] s'| | |] eqn:Hi; try discriminate W. apply Z.eqb_eq in W. subst w.
  assert (Hs : s' = skip_at bs).
  { pose proof (calls_compute _ 60 _ _ _ _ Hi ltac:(discriminate)) as C.
    assert (C2 : calls std_env "stdlib.skip-unknown-value" [VI32 1000; VI32 1024] (skip_at bs) (RVals [VI32 1028] (skip_at bs))) by (apply (calls_compute _ 60); [vm_compute; reflexivity|discriminate]).
    pose proof (calls_det _ _ _ _ _ _ C C2) as D. apply (f_equal (fun r => match r with RVals _ s => Some s | _ => None end)) in D. congruence. }
  subst s'. assert (K : holds (smem (skip_at bs)) 1000 c23_past) by (apply (skip_at_holds bs 24); [cbn; lia|vm_compute; reflexivity|cbn; lia]).
  destruct (H 1000 c23_past (skip_at bs) 1028 K) as [C|C]; [reflexivity|exact (calls_compute _ 60 _ _ _ _ Hi ltac:(discriminate))|discriminate C|change (zlen c23_past) with 24 in C; lia].
Qed.
Print Assumptions C23_past_the_end_refuted.

(** a buffer length that wraps around 2^32 moves the position backwards *)
Theorem C23_backwards_refuted : ~ stays_inside (@std_env unit).
Proof.
  intros H. set (bs := [2; 255; 255; 255; 240]).
  assert (C : calls std_env "stdlib.skip-unknown-value" [VI32 1000; VI32 1005] (skip_at bs) (RVals [VI32 989] (skip_at bs))) by (apply (calls_compute _ 60); [vm_compute; reflexivity|discriminate]).
  assert (K : holds (smem (skip_at bs)) 1000 bs) by (apply (skip_at_holds bs 5); [cbn; lia|vm_compute; reflexivity|cbn; lia]).
  destruct (H 1000 bs (skip_at bs) 989 K) as [D|D]; [reflexivity|exact C|discriminate D|lia].
Qed.
Print Assumptions C23_backwards_refuted.

(** version byte 32, which no address has, is accepted; and the contract name
    [__transient], which Clarity's grammar of contract names admits, is refused *)
Theorem C23_version_refuted : ~ refuses (@std_env unit).
Proof.
  intros H. set (bs := 5 :: 32 :: repeat 0 20). specialize (H 1000 bs (skip_at bs)).
  assert (K := skip_result bs 1022 1022 ltac:(vm_compute; reflexivity) 0). discriminate K. apply H.
  - apply (skip_at_holds bs 22); [cbn; lia|vm_compute; reflexivity|cbn; lia].
  - discriminate.
  - reflexivity.
  - intros (v & r & Hw & Hv). destruct v; cbn [sip005] in Hv; try discriminate Hv; try (destruct b; discriminate Hv);
      (destruct p; cbn [sip005_prin] in Hv; [|discriminate Hv]; cbn [wire wire_prin] in Hw; apply (f_equal (fun l => nth 1 l 0)) in Hv; cbn in Hv; lia).
Qed.
Print Assumptions C23_version_refuted.
Theorem C23_transient_refuted :
  returns std_env "stdlib.skip-unknown-value" [VI32 1000; VI32 1034] (skip_at (sip005 (CPrin (PCon 22 (repeat 0 20) (chars "__transient"))))) [VI32 0].
Proof. apply (calls_compute _ 80); [vm_compute; reflexivity|discriminate]. Qed.
Print Assumptions C23_transient_refuted.

(** ** C25: skipping does not always end *)
Section Diverge.
Context {HS : Type} (E : env HS).
Lemma run_known is s o f : runs E is s o -> execs E f is s = OFuel \/ execs E f is s = o.
Proof.
  intros (f0 & H). destruct (execs E f is s) eqn:Hx; try (right; rewrite <- Hx; rewrite <- (H (Nat.max f0 f)) by lia; symmetry; apply execs_mono; [lia|congruence]). left. reflexivity.
Qed.
Lemma execs_app f is1 : forall is2 s, execs E f (is1 ++ is2) s = match execs E f is1 s with ONormal s' => execs E f is2 s' | o => o end.
Proof.
  unfold execs. induction is1 as [|i is1 IH]; intros is2 s; cbn [app run_list]; [reflexivity|]. destruct (exec E f i s); auto.
Qed.
Lemma fuel_prefix is1 is2 s s' f : runs E is1 s (ONormal s') -> execs E f is2 s' = OFuel -> execs E f (is1 ++ is2) s = OFuel.
Proof. intros H1 H2. rewrite execs_app. destruct (run_known _ _ _ f H1) as [-> | ->]; [reflexivity|exact H2]. Qed.
Lemma fuel_cons i is s f : exec E f i s = OFuel -> execs E f (i :: is) s = OFuel.
Proof. intros H. unfold execs. cbn [run_list]. rewrite H. reflexivity. Qed.
Lemma fuel_if f np nr t e ls k st : execs E f e (mkcfg ls (firstn np k) st) = OFuel -> exec E f (If np nr t e) (mkcfg ls (VI32 0 :: k) st) = OFuel.
Proof. intros H. transitivity (exit_block nr (skipn np k) (execs E f e (mkcfg ls (firstn np k) st))); [destruct f; reflexivity|rewrite H; reflexivity]. Qed.
Lemma fuel_block f np nr b ls k st : execs E f b (mkcfg ls (firstn np k) st) = OFuel -> exec E f (Block np nr b) (mkcfg ls k st) = OFuel.
Proof. intros H. transitivity (exit_block nr (skipn np k) (execs E f b (mkcfg ls (firstn np k) st))); [destruct f; reflexivity|rewrite H; reflexivity]. Qed.
Lemma fuel_loop f b ls st : execs E f b (mkcfg ls [] st) = OFuel -> exec E f (Loop 0 0 b) (mkcfg ls [] st) = OFuel.
Proof. intros H. transitivity (match execs E f b (mkcfg ls [] st) with
     | ONormal s' => ONormal (setstk s' (cstack s' ++ []))
     | OBr O s' => match f with O => OFuel | S f => exec E f (Loop 0 0 b) (setstk s' []) end
     | OBr (S n) s' => OBr n s'
     | o => o end); [destruct f; reflexivity|rewrite H; reflexivity]. Qed.
Lemma fuel_again f b ls ls' st : runs E b (mkcfg ls [] st) (OBr 0 (mkcfg ls' [] st)) -> (forall f', (f' < f)%nat -> exec E f' (Loop 0 0 b) (mkcfg ls' [] st) = OFuel) ->
  exec E f (Loop 0 0 b) (mkcfg ls [] st) = OFuel.
Proof.
  intros H1 H2. transitivity (match execs E f b (mkcfg ls [] st) with
     | ONormal s' => ONormal (setstk s' (cstack s' ++ []))
     | OBr O s' => match f with O => OFuel | S f => exec E f (Loop 0 0 b) (setstk s' []) end
     | OBr (S n) s' => OBr n s'
     | o => o end); [destruct f; reflexivity|].
  destruct (run_known _ _ _ f H1) as [-> | ->]; [reflexivity|]. destruct f; [reflexivity|]. apply H2. lia.
Qed.
Lemma fuel_call f g n args ls k st : fun_arity E g = Some n -> length k = n -> rev k = args ->
  (forall f', (f' < f)%nat -> invoke E f' g args st = RFuel) -> exec E f (Call g) (mkcfg ls k st) = OFuel.
Proof.
  intros Hn Hk Ha H. destruct f as [|f]; cbn [exec]; rewrite Hn; [reflexivity|]. cbn [cstack cstore clocals]. rewrite <- Hk, firstn_all, Ha.
  transitivity (ret_call ls (skipn (length k) k) (invoke E f g args st)); [reflexivity|]. rewrite H by lia. reflexivity.
Qed.
Lemma fuel_callind f g ps rs args c ls k st : nth_error (etable E) (Z.to_nat c) = Some g -> fun_types E g = Some (ps, rs) -> vts_eqb ps ps && vts_eqb rs rs = true -> length k = length ps -> rev k = args ->
  (forall f', (f' < f)%nat -> invoke E f' g args st = RFuel) -> exec E f (CallInd ps rs) (mkcfg ls (VI32 c :: k) st) = OFuel.
Proof.
  intros Hg Hty Hv Hk Ha H. destruct f as [|f]; cbn [exec cstack]; rewrite Hg, Hty; [reflexivity|]. rewrite Hv. cbn [cstore clocals]. rewrite <- Hk, firstn_all, Ha.
  transitivity (ret_call ls (skipn (length k) k) (invoke E f g args st)); [reflexivity|]. rewrite H by lia. reflexivity.
Qed.
Lemma fuel_fun f g fn args st : efun E g = Some fn -> execs E f (fbody fn) (mkcfg (args ++ map zero_of (flocals fn)) [] st) = OFuel -> invoke E f g args st = RFuel.
Proof. intros Hg H. unfold invoke, call_func. rewrite Hg. unfold execs in H. rewrite H. reflexivity. Qed.
End Diverge.

(** the tuple [{a: {a: <buffer of 2^32 - 14 bytes>, ...}}]: skipping the buffer leads back to
    the outer field [a] *)
Definition c25_bytes : list Z := [12; 0; 0; 0; 1;  1; 97;  12; 0; 0; 0; 2;  1; 97;  2; 255; 255; 255; 242].
Definition c25_store : store unit := skip_at c25_bytes.

Definition else_of (i : instr) : list instr := match i with If _ _ _ e => e | _ => [] end.
Definition body_of (i : instr) : list instr := match i with Block _ _ b | Loop _ _ b => b | _ => [] end.
Definition c25_if := nth 3 (fbody f_skip_unknown_value) Unreachable.
Definition c25_block := nth 16 (fbody f_skip_tuple) Unreachable.
Definition c25_loop := nth 0 (body_of c25_block) Unreachable.

Lemma c25_inner : forall fuel, invoke std_env fuel "stdlib.skip-unknown-value" [VI32 1007; VI32 1019] c25_store = RFuel.
Proof.
  intros fuel. induction fuel as [fuel IH] using lt_wf_ind.
  eapply fuel_fun; [reflexivity|]. 
  change (fbody f_skip_unknown_value) with (firstn 3 (fbody f_skip_unknown_value) ++ [c25_if]).
  eapply (fuel_prefix _ _ _ _ (mkcfg [VI32 1007; VI32 1019; VI32 0] [VI32 0] c25_store)); [apply (runs_compute _ 5); [vm_compute; reflexivity|discriminate]|].
  apply fuel_cons. apply fuel_if. cbn [firstn].
  match goal with |- execs _ _ ?l _ = _ => change l with (firstn 13 l ++ skipn 13 l) end.
  eapply (fuel_prefix _ _ _ _ (mkcfg [VI32 1007; VI32 1019; VI32 12] [VI32 17; VI32 1019; VI32 1008] c25_store)); [apply (runs_compute _ 5); [vm_compute; reflexivity|discriminate]|].
  cbn [skipn]. apply fuel_cons. eapply (fuel_callind _ _ "skip-tuple"); [reflexivity|reflexivity|reflexivity|reflexivity|reflexivity|].
  intros f1 Hf1. eapply fuel_fun; [reflexivity|].
  change (fbody f_skip_tuple) with (firstn 16 (fbody f_skip_tuple) ++ c25_block :: skipn 17 (fbody f_skip_tuple)).
  eapply (fuel_prefix _ _ _ _ (mkcfg [VI32 1012; VI32 1019; VI32 2; VI32 0] [] c25_store)); [apply (runs_compute _ 9); [vm_compute; reflexivity|discriminate]|].
  apply fuel_cons. apply fuel_block. cbn [firstn]. apply fuel_cons.
  eapply fuel_again; [apply (runs_compute _ 20); [vm_compute; reflexivity|discriminate]|].
  intros f2 Hf2. apply fuel_loop.
  match goal with |- execs _ _ ?l _ = _ => change l with (firstn 19 l ++ skipn 19 l) end.
  eapply (fuel_prefix _ _ _ _ (mkcfg [VI32 1006; VI32 1019; VI32 1; VI32 1] [VI32 1019; VI32 1007] c25_store)); [apply (runs_compute _ 20); [vm_compute; reflexivity|discriminate]|].
  cbn [skipn]. apply fuel_cons. eapply (fuel_call _ _ _ 2); [reflexivity|reflexivity|reflexivity|].
  intros f3 Hf3. apply IH. lia.
Qed.

Lemma c25_outer : forall fuel, invoke std_env fuel "stdlib.skip-unknown-value" [VI32 1000; VI32 1019] c25_store = RFuel.
Proof.
  intros fuel. eapply fuel_fun; [reflexivity|]. 
  change (fbody f_skip_unknown_value) with (firstn 3 (fbody f_skip_unknown_value) ++ [c25_if]).
  eapply (fuel_prefix _ _ _ _ (mkcfg [VI32 1000; VI32 1019; VI32 0] [VI32 0] c25_store)); [apply (runs_compute _ 5); [vm_compute; reflexivity|discriminate]|].
  apply fuel_cons. apply fuel_if. cbn [firstn].
  match goal with |- execs _ _ ?l _ = _ => change l with (firstn 13 l ++ skipn 13 l) end.
  eapply (fuel_prefix _ _ _ _ (mkcfg [VI32 1000; VI32 1019; VI32 12] [VI32 17; VI32 1019; VI32 1001] c25_store)); [apply (runs_compute _ 5); [vm_compute; reflexivity|discriminate]|].
  cbn [skipn]. apply fuel_cons. eapply (fuel_callind _ _ "skip-tuple"); [reflexivity|reflexivity|reflexivity|reflexivity|reflexivity|].
  intros f1 Hf1. eapply fuel_fun; [reflexivity|].
  change (fbody f_skip_tuple) with (firstn 16 (fbody f_skip_tuple) ++ c25_block :: skipn 17 (fbody f_skip_tuple)).
  eapply (fuel_prefix _ _ _ _ (mkcfg [VI32 1005; VI32 1019; VI32 1; VI32 0] [] c25_store)); [apply (runs_compute _ 9); [vm_compute; reflexivity|discriminate]|].
  apply fuel_cons. apply fuel_block. cbn [firstn]. apply fuel_cons. apply fuel_loop.
  match goal with |- execs _ _ ?l _ = _ => change l with (firstn 19 l ++ skipn 19 l) end.
  eapply (fuel_prefix _ _ _ _ (mkcfg [VI32 1006; VI32 1019; VI32 1; VI32 1] [VI32 1019; VI32 1007] c25_store)); [apply (runs_compute _ 20); [vm_compute; reflexivity|discriminate]|].
  cbn [skipn]. apply fuel_cons. eapply (fuel_call _ _ _ 2); [reflexivity|reflexivity|reflexivity|].
  intros f3 Hf3. apply c25_inner.
Qed.
(** On these 19 bytes the code recurses for ever (an engine with a bounded call stack aborts
    instead of answering): no fuel suffices, hence it neither returns nor traps. *)
Theorem C25_skip_halts_refuted :
  holds (smem c25_store) 1000 c25_bytes /\
  (forall fuel, invoke std_env fuel "stdlib.skip-unknown-value" [VI32 1000; VI32 (1000 + zlen c25_bytes)] c25_store = RFuel) /\
  ~ halts std_env "stdlib.skip-unknown-value" [VI32 1000; VI32 (1000 + zlen c25_bytes)] c25_store.
Proof.
  split; [apply (skip_at_holds c25_bytes 19); [cbn; lia|vm_compute; reflexivity|cbn; lia]|]. change (1000 + zlen c25_bytes) with 1019. split; [exact c25_outer|].
  intros (r & (f0 & H) & Hr). specialize (H f0 (le_n _)). rewrite c25_outer in H. subst r. exact Hr.
Qed.
Print Assumptions C25_skip_halts_refuted.

(** ** Examples *)
Definition scalarb (c : Z) : bool := (0 <=? c) && (c <? 55296) || (57344 <=? c) && (c <? 1114112).
Definition byteb (b : Z) : bool := (0 <=? b) && (b <? 256).
Definition prinb (p : prin) : bool :=
  match p with
  | PStd v h => (0 <=? v) && (v <? 32) && (length h =? 20)%nat && forallb byteb h
  | PCon v h n => (0 <=? v) && (v <? 32) && (length h =? 20)%nat && forallb byteb h && clarity_nameb n
  end.
Fixpoint wireb (v : value) : bool :=
  match v with
  | CInt z => (- 2 ^ 127 <=? z) && (z <? 2 ^ 127)
  | CUInt z => (0 <=? z) && (z <? 2 ^ 128)
  | CBuff bs => (zlen bs <? 2 ^ 32) && forallb byteb bs
  | CAscii bs => (zlen bs <? 2 ^ 32) && forallb asciib bs
  | CUtf8 cs => (zlen (utf8 cs) <? 2 ^ 32) && forallb scalarb cs
  | CBool _ | CNone => true
  | CPrin p | CCallable p _ => prinb p
  | COk v | CErr v | CSome v => wireb v
  | CList vs => (zlen vs <? 2 ^ 32) && forallb wireb vs
  | CTuple fs => negb (match fs with [] => true | _ => false end) && (zlen fs <? 2 ^ 32) && forallb (fun f => clarity_nameb (chars (fst f)) && wireb (snd f)) fs
  end.
Lemma allb {A} (p : A -> bool) (P : A -> Prop) l : (forall x, p x = true -> P x) -> forallb p l = true -> Forall P l.
Proof. intros H Hl. apply Forall_forall. intros x Hx. apply H. rewrite forallb_forall in Hl. apply Hl. exact Hx. Qed.
Lemma prinb_ok p : prinb p = true -> wire_prin p.
Proof.
  assert (B : forall x, byteb x = true -> byte x) by (unfold byteb, byte; intros; lia).
  destruct p; cbn [prinb wire_prin]; rewrite !andb_true_iff; intros Hp.
  - destruct Hp as (((H1 & H2) & H3) & H4). split; [lia|]. split; [apply Nat.eqb_eq; exact H3|apply (allb _ _ _ B H4)].
  - destruct Hp as ((((H1 & H2) & H3) & H4) & H5). split; [lia|]. split; [apply Nat.eqb_eq; exact H3|]. split; [apply (allb _ _ _ B H4)|]. apply clarity_name_iff. exact H5.
Qed.
Lemma clarity_wireb v : wireb v = true -> wire v.
Proof.
  induction v using LangFacts.value_ind'; cbn [wireb wire]; intros Hb; auto; try lia; try (apply prinb_ok; exact Hb).
  - apply andb_prop in Hb as (H1 & H2). split; [apply Z.ltb_lt; exact H1|]. apply (allb byteb); [unfold byteb, byte; intros; lia|exact H2].
  - apply andb_prop in Hb as (H1 & H2). split; [apply Z.ltb_lt; exact H1|]. apply (allb asciib); [intros x Hx; apply asciib_spec; exact Hx|exact H2].
  - apply andb_prop in Hb as (H1 & H2). split; [apply Z.ltb_lt; exact H1|]. apply (allb scalarb); [unfold scalarb, scalar; intros; lia|exact H2].
  - apply andb_prop in Hb as (H1 & H2). split; [apply Z.ltb_lt; exact H1|]. clear H1. induction H as [|v l Hv H IH]; [exact I|]. cbn [forallb] in H2. apply andb_prop in H2 as (H2 & H3). split; [apply Hv; exact H2|apply IH; exact H3].
  - apply andb_prop in Hb as (H0 & H2). apply andb_prop in H0 as (H0 & H1). split; [destruct l; [discriminate H0|discriminate]|]. split; [apply Z.ltb_lt; exact H1|]. clear H0 H1.
    induction H as [|[k v] l Hv H IH]; [exact I|]. cbn [forallb fst snd] in H2, Hv. apply andb_prop in H2 as (H2 & H3). apply andb_prop in H2 as (H2 & H4).
    split; [apply clarity_name_iff; exact H2|]. split; [apply Hv; exact H4|apply IH; exact H3].
Qed.
Definition c23_v : value := CTuple [("a", CSome (CInt (-5))); ("b", COk (CTuple [("x", CPrin (PCon 22 (repeat 7 20) (chars "my-contract"))); ("y", CUtf8 [97; 233; 8364; 128512])])); ("c", CAscii [104; 105])].
Example C23_ex1 : returns std_env "stdlib.skip-unknown-value" [VI32 1000; VI32 2000] (skip_at (sip005 c23_v)) [VI32 (1000 + zlen (sip005 c23_v))].
Proof.
  apply (C23_skip_value_partial _ std_env_ok).
  - apply clarity_wireb. vm_compute. reflexivity.
  - rewrite <- (firstn_all (sip005 c23_v)) at 2. apply skip_at_holds; [|vm_compute; reflexivity|]; apply Nat.leb_le; vm_compute; reflexivity.
  - apply Z.leb_le. vm_compute. reflexivity.
  - reflexivity.
  - reflexivity.
  - intros vs [].
Qed.
(** with lists, on a host that knows the end of this one *)
Definition c23_l : value := CTuple [("a", CSome (CList [CInt 1; CInt 2])); ("b", CBool true)].
Definition c23_env : env unit := mkenv (fun n => assoc n std_funs)
  (fun n => if (n =? "skip-list")%string then Some ([T32; T32], fun args st => match args with [VI32 a; VI32 _] => RVals [VI32 (a + 38)] st | _ => RStuck end) else None) std_table.
Example C23_ex2 : returns c23_env "stdlib.skip-unknown-value" [VI32 1000; VI32 2000] (skip_at (sip005 c23_l)) [VI32 (1000 + zlen (sip005 c23_l))].
Proof.
  apply C23_skip_value_partial.
  - split; [intros n f H; exact H|reflexivity].
  - apply clarity_wireb. vm_compute. reflexivity.
  - rewrite <- (firstn_all (sip005 c23_l)) at 2. apply skip_at_holds; [|vm_compute; reflexivity|]; apply Nat.leb_le; vm_compute; reflexivity.
  - apply Z.leb_le. vm_compute. reflexivity.
  - reflexivity.
  - reflexivity.
  - intros vs [<-|[]]. split; [reflexivity|]. intros a _ _ _. exists 1%nat. intros [|f] Hf; [lia|]. 
    transitivity (RVals [VI32 (a + 38)] (skip_at (sip005 c23_l))); [reflexivity|]. do 3 f_equal. change (zlen (flat_map sip005 [CInt 1; CInt 2])) with 34. lia.
Qed.
Example C55_ex1 : clarity_name (chars "is-ok?") /\ ~ clarity_name (chars "9a") /\ ~ clarity_name (chars "<==").
Proof.
  split; [|split]; rewrite clarity_name_iff; [vm_compute; reflexivity|vm_compute; discriminate|vm_compute; discriminate].
Qed.
