(** * C39: cost metering charges the declared cost and stops at the budget *)
From Coq Require Import ZArith String List Bool Lia.
Import ListNotations.
From Verif Require Import Wasm Std StdEnv WasmLogic WasmTac Spec ArithProofs MulProofs LangEarly Cost CostTables.
Open Scope string_scope.
Open Scope Z_scope.

(** ** Specification *)

(** the price a cost function declares for a size [n] (log2 of 0 taken as 0) *)
Definition price (c : caf) (n : Z) : Z :=
  match c with
  | CConst c => c
  | CLinear a b => a * n + b
  | CLogN a b => a * Z.log2 n + b
  | CNLogN a b => a * n * Z.log2 n + b
  | CNone => 0
  end.

(** the five dimensions a word is charged in, in order, and the budget left in each *)
Definition dimensions : list string :=
  ["cost-runtime"; "cost-read-count"; "cost-read-length"; "cost-write-count"; "cost-write-length"].
Definition prices (c : word_cost) (n : Z) : list Z :=
  [price (wc_runtime c) n; price (wc_read_count c) n; price (wc_read_length c) n;
   price (wc_write_count c) n; price (wc_write_length c) n].
Definition meter (g : globals) (budget : list Z) : Prop :=
  Forall2 (fun d b => gget g d = Some (VI64 b)) dimensions budget.
(** a budget the metering code handles: each dimension is below 2^63 *)
Definition fair (budget : list Z) : Prop := Forall (fun b => 0 <= b < 2 ^ 63) budget.
Fixpoint minus (bs ps : list Z) : list Z :=
  match bs, ps with b :: bs, p :: ps => (b - p) :: minus bs ps | _, _ => [] end.
(** the error code of the first dimension whose price is above its budget *)
Fixpoint overrun (code : Z) (bs ps : list Z) : option Z :=
  match bs, ps with
  | b :: bs, p :: ps => if b <? p then Some code else overrun (code + 1) bs ps
  | _, _ => None
  end.
(** only the cost globals changed *)
Definition only_meter {HS} (st st' : store HS) : Prop :=
  smem st' = smem st /\ shost st' = shost st /\
  forall x, ~ In x dimensions -> gget (sglob st') x = gget (sglob st) x.
(** the size: a constant, or the value of a local *)
Definition scalar_value (ls : list val) (n : scalar) (v : Z) : Prop :=
  match n with SCompile c => c = v | SRun l => nth_error ls l = Some (VI32 v) end.
(** running [code] charges [ps] from [budget] *)
Definition charges {HS} (E : env HS) (code : list instr) (ls k : list val) (st : store HS)
    (budget ps : list Z) : Prop :=
  match overrun 100 budget ps with
  | None => exists st', runs E code (mkcfg ls k st) (ONormal (mkcfg ls k st')) /\
      only_meter st st' /\ meter (sglob st') (minus budget ps)
  | Some c => exists st', runs E code (mkcfg ls k st) (OTrap TUnreachable st') /\
      gget (sglob st') "runtime-error-code" = Some (VI32 c)
  end.

(** ** Proofs *)
Section Cost.
Context {HS : Type} (E : env HS) (HE : has_std E).
Implicit Types (st : store HS) (Q : outcome HS -> Prop).

Lemma scalar_wp n nv is ls k st Q : scalar_value ls n nv ->
  wp E is (mkcfg ls (VI64 nv :: k) st) Q -> wp E (scalar_get n ++ is) (mkcfg ls k st) Q.
Proof.
  intros Hn Hw. destruct n as [c|l]; cbn [scalar_value] in Hn; cbn [scalar_get app].
  - subst c. eapply wp_step1; [reflexivity|reflexivity|]. exact Hw.
  - eapply wp_step1; [reflexivity| |].
    { cbn [step clocals]. rewrite Hn. reflexivity. }
    eapply wp_step1; [reflexivity|reflexivity|]. exact Hw.
Qed.

Lemma overrun_wp g code B p is ls k st Q w :
  gget (sglob st) "runtime-error-code" = Some w -> g <> "runtime-error-code" ->
  gget (sglob st) g = Some (VI64 B) -> 0 <= B < 2 ^ 64 -> 0 <= p < 2 ^ 64 ->
  ((B - p) mod 2 ^ 64 < 2 ^ 63 ->
     wp E is (mkcfg ls k (with_glob st (gset (sglob st) g (VI64 ((B - p) mod 2 ^ 64))))) Q) ->
  (2 ^ 63 <= (B - p) mod 2 ^ 64 ->
     forall st', gget (sglob st') "runtime-error-code" = Some (VI32 code) -> Q (OTrap TUnreachable st')) ->
  wp E (overrun_check g code ++ is) (mkcfg ls (VI64 p :: VI64 B :: k) st) Q.
Proof.
  intros Hrc Hne Hg HB Hp Hok Hbad.
  cbn [overrun_check app]. eapply wp_step1; [reflexivity|reflexivity|].
  apply wp_gset. eapply wp_gget. { cbn [sglob with_glob]. eapply gget_set; eauto. }
  eapply wp_step1; [reflexivity|reflexivity|]. eapply wp_step1; [reflexivity|reflexivity|].
  change m64 with (2 ^ 64). set (r := (B - p) mod 2 ^ 64) in *.
  assert (Hr : 0 <= r < 2 ^ 64) by (subst r; apply Z.mod_pos_bound; lia).
  cbn [setstk]. unfold setstk. cbn [clocals cstore cstack].
  replace (irel sgn64 LtS r 0) with (2 ^ 63 <=? r).
  2:{ unfold irel. rewrite sgn64_lt0 by exact Hr. reflexivity. }
  wif Hb.
  - eapply wp_step1; [reflexivity|reflexivity|]. wcall HE. apply runtime_error_wp; [exact HE|].
    unfold qcall, err. wcbn. unfold qblock. apply Z.leb_le in Hb.
    cbn. apply Hbad; [exact Hb|]. cbn [sglob with_glob]. eapply gget_set.
    rewrite gget_set_other by congruence. exact Hrc.
  - wnil. apply Z.leb_gt in Hb. apply Hok. exact Hb.
Qed.

Definition step_price (c : caf) (n : Z) : Prop :=
  (match c with CConst c => 0 <= c | CLinear a b | CLogN a b | CNLogN a b => 0 <= a /\ 0 <= b | CNone => True end) /\
  (match c with CLogN _ _ => 1 <= n | _ => True end) /\ 0 <= price c n < 2 ^ 63.

Lemma log_word n : 1 <= n < 2 ^ 32 -> (63 - clz 64 n) mod m64 = Z.log2 n.
Proof.
  intros Hn. unfold clz. destruct (Z.eqb_spec n 0); [lia|].
  pose proof (Z.log2_lt_pow2 n 32 ltac:(lia)). pose proof (Z.log2_nonneg n).
  replace (63 - (64 - 1 - Z.log2 n)) with (Z.log2 n) by lia.
  apply Z.mod_small. change m64 with (2 ^ 64). lia.
Qed.

Lemma caf_wp c g code n nv B is ls k st Q w :
  gget (sglob st) "runtime-error-code" = Some w -> g <> "runtime-error-code" ->
  scalar_value ls n nv -> 0 <= nv < 2 ^ 32 -> step_price c nv ->
  gget (sglob st) g = Some (VI64 B) -> 0 <= B < 2 ^ 63 ->
  (price c nv <= B -> forall gl, gget gl g = Some (VI64 (B - price c nv)) ->
     (forall x, x <> g -> gget gl x = gget (sglob st) x) ->
     wp E is (mkcfg ls k (with_glob st gl)) Q) ->
  (B < price c nv ->
     forall st', gget (sglob st') "runtime-error-code" = Some (VI32 code) -> Q (OTrap TUnreachable st')) ->
  wp E (emit_with_caf c g code n ++ is) (mkcfg ls k st) Q.
Proof.
  intros Hrc Hne Hn Hnv (Hpos & Hlog & Hp) Hg HB Hok Hbad.
  assert (Hend : wp E (overrun_check g code ++ is) (mkcfg ls (VI64 (price c nv) :: VI64 B :: k) st) Q).
  { eapply overrun_wp; eauto; try lia.
    - intros Hr. assert (price c nv <= B).
      { destruct (Z.le_gt_cases (price c nv) B); [assumption|exfalso].
        rewrite <- (Z.mod_unique (B - price c nv) (2 ^ 64) (-1) (B - price c nv + 2 ^ 64)) in Hr by lia. lia. }
      rewrite Z.mod_small by lia. apply Hok; [assumption| |].
      + eapply gget_set; eauto.
      + intros x Hx. apply gget_set_other; auto.
    - intros Hr. apply Hbad. destruct (Z.le_gt_cases (price c nv) B); [exfalso|assumption].
      rewrite Z.mod_small in Hr by lia. lia. }
  destruct c as [c|a b|a b|a b|]; cbn [emit_with_caf]; cbn [price] in *.
  - unfold caf_const. rewrite <- app_assoc. cbn [app].
    eapply wp_gget; [exact Hg|]. eapply scalar_wp; [reflexivity|]. exact Hend.
  - unfold caf_linear. rewrite <- !app_assoc. cbn [app].
    eapply wp_gget; [exact Hg|]. eapply scalar_wp; [exact Hn|].
    do 4 (eapply wp_step1; [reflexivity|reflexivity|]). unfold setstk; cbn [clocals cstore cstack ibin].
    change m64 with (2 ^ 64) in *.
    replace ((((nv * a) mod 2 ^ 64) + b) mod 2 ^ 64) with (a * nv + b); [exact Hend|].
    rewrite Zplus_mod_idemp_l, Z.mod_small by lia. lia.
  - unfold caf_logn. rewrite <- !app_assoc. cbn [app].
    eapply wp_gget; [exact Hg|]. eapply wp_step1; [reflexivity|reflexivity|].
    eapply scalar_wp; [exact Hn|].
    do 6 (eapply wp_step1; [reflexivity|reflexivity|]). unfold setstk; cbn [clocals cstore cstack ibin].
    rewrite log_word by lia. change m64 with (2 ^ 64) in *.
    replace ((((Z.log2 nv * a) mod 2 ^ 64) + b) mod 2 ^ 64) with (a * Z.log2 nv + b); [exact Hend|].
    rewrite Zplus_mod_idemp_l, Z.mod_small by lia. lia.
  - unfold caf_nlogn. rewrite <- !app_assoc. cbn [app].
    eapply wp_gget; [exact Hg|]. eapply wp_step1; [reflexivity|reflexivity|].
    rewrite <- ?app_assoc. cbn [app].
    eapply scalar_wp; [exact Hn|]. do 2 (eapply wp_step1; [reflexivity|reflexivity|]).
    unfold setstk; cbn [clocals cstore cstack ibin].
    eapply scalar_wp; [exact Hn|].
    do 5 (eapply wp_step1; [reflexivity|reflexivity|]). unfold setstk; cbn [clocals cstore cstack ibin].
    replace ((((((63 - clz 64 nv) mod m64 * nv) mod m64 * a) mod m64) + b) mod m64) with (a * nv * Z.log2 nv + b); [exact Hend|].
    assert (Hm : ((63 - clz 64 nv) mod m64 * nv) mod m64 = (Z.log2 nv * nv) mod m64).
    { destruct (Z.eq_dec nv 0) as [->|]; [reflexivity|]. rewrite log_word by lia. reflexivity. }
    rewrite Hm, Zmult_mod_idemp_l, Zplus_mod_idemp_l, Z.mod_small by (change m64 with (2 ^ 64); lia). lia.
  - cbn [app]. apply (fun H => eq_ind _ (fun s => wp E is (mkcfg ls k s) Q) (Hok ltac:(lia) (sglob st) H ltac:(reflexivity)) st).
    + rewrite Z.sub_0_r. exact Hg.
    + destruct st; reflexivity.
Qed.

(** all five dimensions *)
Lemma emit_wp c n nv B ls k st is Q w :
  gget (sglob st) "runtime-error-code" = Some w ->
  scalar_value ls n nv -> 0 <= nv < 2 ^ 32 ->
  Forall (fun f => step_price (f c) nv) [wc_runtime; wc_read_count; wc_read_length; wc_write_count; wc_write_length] ->
  meter (sglob st) B -> fair B ->
  match overrun 100 B (prices c nv) with
  | None => forall st', only_meter st st' -> meter (sglob st') (minus B (prices c nv)) ->
      wp E is (mkcfg ls k st') Q
  | Some code => forall st', gget (sglob st') "runtime-error-code" = Some (VI32 code) -> Q (OTrap TUnreachable st')
  end ->
  wp E (emit_cost c n ++ is) (mkcfg ls k st) Q.
Proof.
  intros Hrc Hn Hnv Hps HM HB H.
  repeat match goal with H : Forall _ (_ :: _) |- _ => apply Forall_cons_iff in H; destruct H end.
  unfold meter, dimensions in HM.
  repeat match goal with H : Forall2 _ (_ :: _) _ |- _ => inversion H; subst; clear H end.
  match goal with H : Forall2 _ [] _ |- _ => inversion H; subst; clear H end.
  unfold fair in HB. repeat match goal with H : Forall _ (_ :: _) |- _ => apply Forall_cons_iff in H; destruct H end.
  unfold prices in H. cbn [overrun minus] in H.
  unfold emit_cost. rewrite <- !app_assoc.
  Ltac look := cbn [sglob with_glob]; repeat match goal with
     | Hx : (forall x, x <> _ -> gget ?gl x = _) |- gget ?gl _ = _ => rewrite Hx by discriminate; cbn [sglob with_glob] end; eauto.
  Ltac one := match goal with H : context [if ?b <? ?p then _ else _] |- _ =>
     destruct (Z.ltb_spec b p);
     (eapply caf_wp; [look|discriminate|eassumption|assumption|assumption|look|assumption| |]);
     [ try (intros; lia) | try (intros _; exact H) | | try (intros; lia)] end.
  one. intros _ g1 Hg1 Ho1.
  one. intros _ g2 Hg2 Ho2.
  one. intros _ g3 Hg3 Ho3.
  one. intros _ g4 Hg4 Ho4.
  one. intros _ g5 Hg5 Ho5.
  apply H.
  - split; [reflexivity|split; [reflexivity|]]. intros x Hx. cbn [sglob with_glob].
    unfold dimensions in Hx. cbn [In] in Hx.
    rewrite Ho5, Ho4, Ho3, Ho2, Ho1 by intuition congruence. reflexivity.
  - unfold meter, dimensions. repeat apply Forall2_cons; [..|constructor]; look.
Qed.
End Cost.

(** every word of every table has non-negative coefficients, and for sizes below 2^32 a
    price below 2^63 *)
Definition sane_caf (c : caf) : bool :=
  match c with
  | CConst c => (0 <=? c) && (c <? 2 ^ 32)
  | CLinear a b | CLogN a b | CNLogN a b => (0 <=? a) && (0 <=? b) && (a <? 2 ^ 20) && (b <? 2 ^ 32)
  | CNone => true
  end.
Definition sane_cost (c : word_cost) : bool :=
  sane_caf (wc_runtime c) && sane_caf (wc_read_count c) && sane_caf (wc_read_length c) &&
  sane_caf (wc_write_count c) && sane_caf (wc_write_length c).
Definition no_log (c : caf) : bool := match c with CLogN _ _ => false | _ => true end.
Definition log_words (w : string) (c : word_cost) : bool :=
  (String.eqb w "get" || no_log (wc_runtime c)) && no_log (wc_read_count c) && no_log (wc_read_length c) &&
  no_log (wc_write_count c) && no_log (wc_write_length c).

(** the tables of Clarity 1, 2 and 3 *)
Definition tables : list (list (string * word_cost)) := [clar1_costs; clar2_costs; clar3_costs].

Lemma tables_sane : forallb (fun t => forallb (fun e => sane_cost (snd e) && log_words (fst e) (snd e)) t) tables = true.
Proof. vm_compute. reflexivity. Qed.

Lemma assoc_in {A} n (t : list (string * A)) c : assoc n t = Some c -> In (n, c) t.
Proof.
  induction t as [|(k, v) t IH]; cbn; [discriminate|].
  destruct (String.eqb_spec k n) as [->|]; [intros H; injection H as ->; auto|auto].
Qed.

Lemma sane_step c n : sane_caf c = true -> (no_log c = true \/ 1 <= n) -> 0 <= n < 2 ^ 32 -> step_price c n.
Proof.
  intros Hs Hl Hn.
  assert (Hlog : 0 <= Z.log2 n <= 31).
  { split; [apply Z.log2_nonneg|]. destruct (Z.eq_dec n 0) as [->|]; [cbn; lia|].
    pose proof (proj1 (Z.log2_lt_pow2 n 32 ltac:(lia)) ltac:(lia)). lia. }
  unfold step_price. destruct c as [c|a b|a b|a b|]; cbn [sane_caf price no_log] in *;
    rewrite ?andb_true_iff, ?Z.leb_le, ?Z.ltb_lt in Hs;
    repeat match goal with H : _ /\ _ |- _ => destruct H end.
  - repeat split; lia.
  - repeat split; try lia; nia.
  - destruct Hl; [discriminate|]. repeat split; try lia; nia.
  - assert (0 <= a * n <= 2 ^ 20 * 2 ^ 32) by (split; [apply Z.mul_nonneg_nonneg; lia|apply Z.mul_le_mono_nonneg; lia]).
    assert (0 <= a * n * Z.log2 n <= (2 ^ 20 * 2 ^ 32) * 31) by (split; [apply Z.mul_nonneg_nonneg; lia|apply Z.mul_le_mono_nonneg; lia]).
    repeat split; lia.
  - repeat split; lia.
Qed.

Lemma table_steps t w c n : In t tables -> assoc w t = Some c -> 0 <= n < 2 ^ 32 -> (w = "get" -> 1 <= n) ->
  Forall (fun f => step_price (f c) n) [wc_runtime; wc_read_count; wc_read_length; wc_write_count; wc_write_length].
Proof.
  intros Ht Hc Hn Hg. apply assoc_in in Hc.
  pose proof tables_sane as HT. rewrite forallb_forall in HT. specialize (HT _ Ht). cbv beta in HT.
  rewrite forallb_forall in HT. specialize (HT _ Hc). cbn [fst snd] in HT.
  unfold sane_cost, log_words in HT. rewrite !andb_true_iff, orb_true_iff, String.eqb_eq in HT.
  repeat apply Forall_cons; [..|constructor]; apply sane_step; try tauto.
Qed.

Lemma wp_ex {HS} (E : env HS) is s (Q : outcome HS -> Prop) : wp E is s Q -> exists o, runs E is s o /\ Q o.
Proof. intros (f0 & o & H & HQ). exists o. split; [exists f0; exact H|exact HQ]. Qed.

(** ** C39: charging a word *)
(** For every Clarity version, every word of its table, every size and every budget below
    2^63: the code charges exactly the declared price in each of the five dimensions and
    changes nothing else, or aborts with the error of the first dimension that cannot pay. *)
Theorem C39_charge_exact_partial : forall {HS} (E : env HS), has_std E ->
  forall table word code n nv ls k (st : store HS) budget w,
  In table tables -> charge table word n = Some code ->
  scalar_value ls n nv -> 0 <= nv < 2 ^ 32 -> (word = "get" -> 1 <= nv) ->
  gget (sglob st) "runtime-error-code" = Some w ->
  meter (sglob st) budget -> fair budget ->
  exists cost, assoc word table = Some cost /\ charges E code ls k st budget (prices cost nv).
Proof.
  intros HS E HE t word code n nv ls k st B w Ht Hch Hn Hnv Hg Hrc HM HB.
  unfold charge in Hch. destruct (assoc word t) as [c|] eqn:Hc; [|discriminate].
  injection Hch as <-. exists c. split; [reflexivity|]. unfold charges.
  pose proof (table_steps _ _ _ _ Ht Hc Hnv Hg) as HP.
  pose proof (fun Q => emit_wp E HE c n nv B ls k st [] Q w Hrc Hn Hnv HP HM HB) as HW.
  rewrite app_nil_r in HW.
  destruct (overrun 100 B (prices c nv)) as [code|].
  - specialize (HW (fun o => exists st', o = OTrap TUnreachable st' /\ gget (sglob st') "runtime-error-code" = Some (VI32 code))).
    destruct (wp_ex _ _ _ _ (HW ltac:(cbv beta; eauto))) as (o & Ho & st' & -> & Hx). eauto.
  - specialize (HW (fun o => exists st', o = ONormal (mkcfg ls k st') /\ only_meter st st' /\ meter (sglob st') (minus B (prices c nv)))).
    destruct (wp_ex _ _ _ _ (HW ltac:(intros; apply wp_nil; cbv beta; eauto))) as (o & Ho & st' & -> & Hx & Hy). eauto.
Qed.
Print Assumptions C39_charge_exact_partial.

(** ** C39: charging a sequence of words *)
(** The words charged one after the other, each with its table entry and size. *)
Fixpoint charge_all (table : list (string * word_cost)) (ws : list (string * scalar)) : option (list instr) :=
  match ws with
  | [] => Some []
  | (w, n) :: ws =>
      match charge table w n, charge_all table ws with
      | Some a, Some b => Some (a ++ b)%list
      | _, _ => None
      end
  end.
Fixpoint plus (ps qs : list Z) : list Z :=
  match ps, qs with p :: ps, q :: qs => (p + q) :: plus ps qs | _, _ => [] end.
(** total declared price of [ws] at sizes [ns] *)
Fixpoint total (table : list (string * word_cost)) (ws : list (string * scalar)) (ns : list Z) : list Z :=
  match ws, ns with
  | (w, _) :: ws, n :: ns =>
      match assoc w table with
      | Some c => plus (prices c n) (total table ws ns)
      | None => total table ws ns
      end
  | _, _ => [0; 0; 0; 0; 0]
  end.
Definition sized (ls : list val) (wn : string * scalar) (v : Z) : Prop :=
  scalar_value ls (snd wn) v /\ 0 <= v < 2 ^ 32 /\ (fst wn = "get" -> 1 <= v).

Definition five (l : list Z) : Prop := length l = 5%nat.
Lemma five_inv l : five l -> exists a b c d e, l = [a; b; c; d; e].
Proof.
  unfold five. intros H.
  destruct l as [|a [|b [|c [|d [|e [|? ?]]]]]]; try discriminate. eauto 8.
Qed.
Lemma meter_five g B : meter g B -> five B.
Proof.
  unfold meter, dimensions. intros H.
  repeat match goal with H : Forall2 _ (_ :: _) _ |- _ => inversion H; subst; clear H end.
  match goal with H : Forall2 _ [] _ |- _ => inversion H; subst end. reflexivity.
Qed.
Lemma f2_cons {A B} (R : A -> B -> Prop) x l y m : Forall2 R (x :: l) (y :: m) -> R x y /\ Forall2 R l m.
Proof. intros H. inversion H; auto. Qed.
Lemma total_five t ws ns : five (total t ws ns) /\ (In t tables -> forall ls, Forall2 (sized ls) ws ns -> Forall (Z.le 0) (total t ws ns)).
Proof.
  revert ns. induction ws as [|(w, n) ws IH]; intros ns.
  { split; [reflexivity|]. intros _ _ _. repeat constructor; lia. }
  destruct ns as [|v ns].
  { split; [reflexivity|]. intros _ ls H. inversion H. }
  cbn [total]. destruct (IH ns) as (H5 & Hp).
  destruct (assoc w t) as [c|] eqn:Hc.
  - split.
    + destruct (five_inv _ H5) as (a & b & c' & d & e & ->). reflexivity.
    + intros Ht ls H. inversion H as [|? ? ? ? (Hs & Hv & Hg) Hr]; subst. specialize (Hp Ht ls Hr).
      pose proof (table_steps _ _ _ _ Ht Hc Hv Hg) as HP.
      destruct (five_inv _ H5) as (a & b & c' & d & e & Eq). rewrite Eq in *. cbn [plus prices].
      repeat match goal with H : Forall _ (_ :: _) |- _ => apply Forall_cons_iff in H; destruct H end.
      unfold step_price in *. repeat constructor; lia.
  - split; [exact H5|]. intros Ht ls H. inversion H; subst. eapply Hp; eauto.
Qed.

Lemma charge_all_wp {HS} (E : env HS) (HE : has_std E) t ls k : In t tables -> forall ws ns code (st : store HS) B w,
  charge_all t ws = Some code -> Forall2 (sized ls) ws ns ->
  gget (sglob st) "runtime-error-code" = Some w -> meter (sglob st) B -> fair B ->
  wp E code (mkcfg ls k st) (fun o =>
    (exists st', o = ONormal (mkcfg ls k st') /\ Forall2 Z.le (total t ws ns) B /\
       only_meter st st' /\ meter (sglob st') (minus B (total t ws ns))) \/
    (exists st' i, (i < 5)%nat /\ o = OTrap TUnreachable st' /\
       gget (sglob st') "runtime-error-code" = Some (VI32 (100 + Z.of_nat i)) /\
       nth i B 0 < nth i (total t ws ns) 0)).
Proof.
  intros Ht. induction ws as [|(wd, n) ws IH]; intros ns code st B w Hcode Hs Hrc HM HB.
  - injection Hcode as <-. apply wp_nil. left. exists st.
    inversion Hs; subst. cbn [total].
    assert (H5 : five B). { exact (meter_five _ _ HM). }
    destruct (five_inv _ H5) as (b1 & b2 & b3 & b4 & b5 & ->). unfold fair in HB.
    repeat match goal with H : Forall _ (_ :: _) |- _ => apply Forall_cons_iff in H; destruct H end.
    split; [reflexivity|]. split; [|split].
    + repeat constructor; lia.
    + unfold only_meter. auto.
    + cbn [minus]. rewrite !Z.sub_0_r. exact HM.
  - destruct ns as [|v ns]; [inversion Hs|].
    inversion Hs as [|? ? ? ? (Hv & Hn & Hg) Hr]; subst. cbn [fst snd] in *.
    cbn [charge_all] in Hcode. unfold charge in Hcode.
    destruct (assoc wd t) as [c|] eqn:Hc; [|discriminate].
    destruct (charge_all t ws) as [rest|] eqn:Hrest; [|discriminate]. injection Hcode as <-.
    cbn [total]. rewrite Hc.
    pose proof (table_steps _ _ _ _ Ht Hc Hn Hg) as HP.
    destruct (total_five t ws ns) as (H5 & Hpos). specialize (Hpos Ht ls Hr).
    eapply (emit_wp E HE c n v B ls k st rest); eauto.
    assert (HB5 : five B). { exact (meter_five _ _ HM). }
    destruct (five_inv _ HB5) as (b1 & b2 & b3 & b4 & b5 & ->).
    destruct (overrun 100 _ _) as [co|] eqn:Hov.
    + intros st' Hx. right.
      destruct (five_inv _ H5) as (t1 & t2 & t3 & t4 & t5 & Eq). rewrite Eq in *.
      repeat match goal with H : Forall _ (_ :: _) |- _ => apply Forall_cons_iff in H; destruct H end.
      unfold prices in *. cbn [overrun plus] in *.
      repeat match goal with H : context [if ?b <? ?p then _ else _] |- _ => destruct (Z.ltb_spec b p) end;
        [exists st', 0%nat|exists st', 1%nat|exists st', 2%nat|exists st', 3%nat|exists st', 4%nat|discriminate];
        injection Hov as <-; (split; [lia|split; [reflexivity|split; [exact Hx|cbn [nth]; lia]]]).
    + intros st' Hom HM'.
      assert (HB' : fair (minus [b1; b2; b3; b4; b5] (prices c v)) /\ Forall2 Z.le (prices c v) [b1; b2; b3; b4; b5]).
      { unfold fair, prices in *. cbn [overrun minus] in *.
        repeat match goal with H : context [if ?b <? ?p then _ else _] |- _ => destruct (Z.ltb_spec b p); [discriminate|] end.
        repeat match goal with H : Forall _ (_ :: _) |- _ => apply Forall_cons_iff in H; destruct H end.
        unfold step_price in *. split; repeat constructor; lia. }
      destruct HB' as (HB' & Hle).
      assert (Hrc' : gget (sglob st') "runtime-error-code" = Some w).
      { rewrite (proj2 (proj2 Hom)); [exact Hrc|]. unfold dimensions. cbn [In]. intuition discriminate. }
      eapply wp_mono; [eapply IH; eauto|]. cbv beta.
      destruct (five_inv _ H5) as (t1 & t2 & t3 & t4 & t5 & Eq). rewrite Eq in *.
      unfold prices in *. cbn [minus plus] in *.
      intros o [(s2 & -> & Hle2 & Hom2 & HM2)|(s2 & i & Hi & -> & Hcode & Hlt)].
      * left. exists s2. split; [reflexivity|]. split; [|split].
        -- repeat match goal with H : Forall2 _ (_ :: _) (_ :: _) |- _ => apply f2_cons in H; destruct H end.
           repeat constructor; lia.
        -- destruct Hom as (A1 & A2 & A3), Hom2 as (B1 & B2 & B3).
           split; [congruence|split; [congruence|]]. intros x Hx. rewrite B3, A3 by exact Hx. reflexivity.
        -- rewrite !Z.sub_add_distr. exact HM2.
      * right. exists s2, i. split; [exact Hi|]. split; [reflexivity|]. split; [exact Hcode|].
        destruct i as [|[|[|[|[|i]]]]]; cbn [nth] in *; lia.
Qed.

(** Any sequence of charges: it runs to the end exactly when the total declared price fits
    the budget in all dimensions, and then the budget is reduced by exactly that total;
    otherwise it aborts with the error of a dimension whose total exceeds the budget. *)
Theorem C39_cumulative_partial : forall {HS} (E : env HS), has_std E ->
  forall table ws ns code ls k (st : store HS) budget w,
  In table tables -> charge_all table ws = Some code -> Forall2 (sized ls) ws ns ->
  gget (sglob st) "runtime-error-code" = Some w -> meter (sglob st) budget -> fair budget ->
  (Forall2 Z.le (total table ws ns) budget /\
   exists st', runs E code (mkcfg ls k st) (ONormal (mkcfg ls k st')) /\
     only_meter st st' /\ meter (sglob st') (minus budget (total table ws ns))) \/
  (exists st' i, (i < 5)%nat /\ nth i budget 0 < nth i (total table ws ns) 0 /\
     runs E code (mkcfg ls k st) (OTrap TUnreachable st') /\
     gget (sglob st') "runtime-error-code" = Some (VI32 (100 + Z.of_nat i))).
Proof.
  intros HS E HE t ws ns code ls k st B w Ht Hcode Hs Hrc HM HB.
  destruct (wp_ex _ _ _ _ (charge_all_wp E HE t ls k Ht ws ns code st B w Hcode Hs Hrc HM HB))
    as (o & Ho & [(s2 & -> & Hle & Hom & HM2)|(s2 & i & Hi & -> & Hc & Hlt)]).
  - left. split; [exact Hle|]. eauto.
  - right. exists s2, i. auto.
Qed.
Print Assumptions C39_cumulative_partial.

(** examples: Clarity 3 `concat` of 300 elements, and a budget that runs out at the second word *)
Definition metered_store (b : Z) : store unit :=
  mkstore (mkmem (fun _ => 0) 65536)
    (map (fun d => (d, VI64 b)) dimensions ++ std_globals)%list tt.
Example C39_ex_hyps : In clar3_costs tables /\ meter (sglob (metered_store 100000)) [100000; 100000; 100000; 100000; 100000] /\
  fair [100000; 100000; 100000; 100000; 100000] /\
  scalar_value [VI32 300] (SRun 0) 300 /\ assoc "concat" clar3_costs = Some (mkcost (CLinear 37 220) CNone CNone CNone CNone).
Proof. split; [cbn; auto|]. split; [unfold meter, dimensions; repeat constructor|]. split; [repeat constructor; lia|]. split; reflexivity. Qed.
Definition ex_words := [("concat", SRun 0); ("map-set", SCompile 40); ("+", SCompile 2)].
Example C39_ex_total : total clar3_costs ex_words [300; 40; 2] = [13526; 1; 0; 1; 41].
Proof. vm_compute. reflexivity. Qed.
Example C39_ex_sized : Forall2 (sized [VI32 300]) ex_words [300; 40; 2].
Proof.
  unfold ex_words, sized. repeat (apply Forall2_cons; [cbn [fst snd scalar_value]; split; [reflexivity|split; [lia|discriminate]]|]).
  apply Forall2_nil.
Qed.
Example C39_ex_pass : exists code, charge_all clar3_costs ex_words = Some code /\
  match execs std_env 60 code (mkcfg [VI32 300] [] (metered_store 13526)) with
  | ONormal s => map (gget (sglob (cstore s))) dimensions = map (fun z => Some (VI64 z)) [0; 13525; 13526; 13525; 13485]
  | _ => False
  end.
Proof. eexists; split; [reflexivity|]. vm_compute. reflexivity. Qed.
Example C39_ex_stop : exists code, charge_all clar3_costs ex_words = Some code /\
  match execs std_env 60 code (mkcfg [VI32 300] [] (metered_store 13525)) with
  | OTrap TUnreachable st => gget (sglob st) "runtime-error-code" = Some (VI32 100)
  | _ => False
  end.
Proof. eexists; split; [reflexivity|]. vm_compute. reflexivity. Qed.

(** ** C39, refuted: budgets from 2^63 *)
(** [set_cost_meter] takes u64 budgets; with a budget from 2^63 + price the first charge aborts,
    although the budget covers it. *)
Theorem C39_large_budget_refuted : forall {HS} (E : env HS), has_std E ->
  forall g code c ls k (st : store HS) budget w,
  g <> "runtime-error-code" -> gget (sglob st) "runtime-error-code" = Some w ->
  gget (sglob st) g = Some (VI64 budget) -> 0 <= c < 2 ^ 32 -> 2 ^ 63 + c <= budget < 2 ^ 64 ->
  exists st', runs E (emit_with_caf (CConst c) g code (SCompile 0)) (mkcfg ls k st) (OTrap TUnreachable st') /\
    gget (sglob st') "runtime-error-code" = Some (VI32 code).
Proof.
  intros HS E HE g code c ls k st B w Hne Hrc Hg Hc HB.
  enough (Hw : wp E (emit_with_caf (CConst c) g code (SCompile 0)) (mkcfg ls k st)
     (fun o => exists st', o = OTrap TUnreachable st' /\ gget (sglob st') "runtime-error-code" = Some (VI32 code))).
  { destruct (wp_ex _ _ _ _ Hw) as (o & Ho & st' & -> & Hx). eauto. }
  cbn [emit_with_caf]. unfold caf_const. cbn [app].
  eapply wp_gget; [exact Hg|]. eapply scalar_wp; [reflexivity|].
  rewrite <- (app_nil_r (overrun_check _ _)).
  eapply overrun_wp; eauto; try lia.
  intros Hr. rewrite Z.mod_small in Hr by lia. lia.
Qed.
Print Assumptions C39_large_budget_refuted.

(** ** C39, refuted: a logarithmic cost at size 0 charges [b - a] *)
Theorem C39_log_of_zero_refuted : forall {HS} (E : env HS), has_std E ->
  forall g code a b ls k (st : store HS) budget w,
  g <> "runtime-error-code" -> gget (sglob st) "runtime-error-code" = Some w ->
  gget (sglob st) g = Some (VI64 budget) -> 0 <= budget < 2 ^ 63 -> 0 <= a <= b -> b < 2 ^ 32 -> b - a <= budget ->
  exists st', runs E (emit_with_caf (CLogN a b) g code (SCompile 0)) (mkcfg ls k st) (ONormal (mkcfg ls k st')) /\
    gget (sglob st') g = Some (VI64 (budget - (b - a))).
Proof.
  intros HS E HE g code a b ls k st B w Hne Hrc Hg HB Ha Hb HBB.
  enough (Hw : wp E (emit_with_caf (CLogN a b) g code (SCompile 0)) (mkcfg ls k st)
     (fun o => exists st', o = ONormal (mkcfg ls k st') /\ gget (sglob st') g = Some (VI64 (B - (b - a))))).
  { destruct (wp_ex _ _ _ _ Hw) as (o & Ho & st' & -> & Hx). eauto. }
  cbn [emit_with_caf]. unfold caf_logn. rewrite <- ?app_assoc. cbn [app].
  eapply wp_gget; [exact Hg|]. eapply wp_step1; [reflexivity|reflexivity|]. eapply scalar_wp; [reflexivity|].
  do 6 (eapply wp_step1; [reflexivity|reflexivity|]). unfold setstk; cbn [clocals cstore cstack ibin].
  rewrite <- (app_nil_r (overrun_check _ _)).
  replace ((((63 - clz 64 0) mod m64 * a) mod m64 + b) mod m64) with (b - a).
  2:{ change ((63 - clz 64 0) mod m64) with (-1 mod m64).
      rewrite Zmult_mod_idemp_l, Zplus_mod_idemp_l, Z.mod_small by (change m64 with (2 ^ 64); lia). lia. }
  eapply overrun_wp; eauto; try lia.
  - intros Hr. apply wp_nil. eexists; split; [reflexivity|]. cbn [sglob with_glob].
    erewrite gget_set by eauto. rewrite Z.mod_small by lia. reflexivity.
  - intros Hr. rewrite Z.mod_small in Hr by lia. lia.
Qed.
Print Assumptions C39_log_of_zero_refuted.

(** ** C39, refuted: compiling with cost code always fails *)
(** [with_cost_code] looks the cost globals up in the standard library, which has none. *)
Theorem C39_cost_code_unavailable_refuted : with_cost_code standard_globals = None.
Proof. reflexivity. Qed.
Print Assumptions C39_cost_code_unavailable_refuted.

(** ** C39, refuted: words of Clarity 1 and 2 that have no table entry *)
(** [xor] is charged as [bit-xor], which Clarity 1 and 2 lack; Clarity 2 lacks the bit
    operations, the conversions, [slice?], [replace-at?] and the consensus-buff words. *)
Theorem C39_missing_words_refuted : forall n,
  charge clar1_costs "bit-xor" n = None /\
  Forall (fun w => charge clar2_costs w n = None)
    ["bit-xor"; "bit-and"; "bit-or"; "bit-not"; "bit-shift-left"; "bit-shift-right"; "slice?"; "replace-at?";
     "to-consensus-buff?"; "from-consensus-buff?"; "buff-to-int-be"; "buff-to-uint-le"; "string-to-int?";
     "int-to-ascii"; "principal-construct?"; "principal-destruct?"; "stx-account"; "get-burn-block-info?"].
Proof. intros n. split; [reflexivity|]. repeat apply Forall_cons; try reflexivity. apply Forall_nil. Qed.
Print Assumptions C39_missing_words_refuted.
