(** * C31: consensus serialization is injective and prefix-free *)
From Coq Require Import ZArith String Ascii List Bool Lia.
Import ListNotations.
From Verif Require Import Wasm StdEnv Spec Mem Bytes SpecUtf8 Utf8Dec Clar LangFacts SpecSer PropUtf8.
Open Scope Z_scope.

Lemma cons_split {A} (x y : A) l m : x :: l = y :: m -> x = y /\ l = m.
Proof. intros H. split; congruence. Qed.

Lemma app_split {A} (a b c d : list A) : length a = length c -> a ++ b = c ++ d -> a = c /\ b = d.
Proof. apply app_inj_len. Qed.

(** a length-prefixed string determines itself and what follows *)
Lemma sized_split (xs ys r s : list Z) : zlen xs < 2 ^ 32 -> zlen ys < 2 ^ 32 ->
  u32_be (zlen xs) ++ xs ++ r = u32_be (zlen ys) ++ ys ++ s -> xs = ys /\ r = s.
Proof.
  intros Hx Hy H. unfold u32_be in H. apply app_split in H as [H1 H2]; [|rewrite !len_be_bytes; reflexivity].
  apply be_bytes_inj in H1; [|unfold zlen; change (256 ^ Z.of_nat 4) with (2 ^ 32); unfold zlen in *; lia..].
  apply app_split in H2; [exact H2|unfold zlen in *; lia].
Qed.

Lemma chars_inj k k' : chars k = chars k' -> k = k'.
Proof.
  intros H. rewrite <- (string_of_list_ascii_of_string k), <- (string_of_list_ascii_of_string k'). f_equal.
  unfold chars in H. revert H. generalize (list_ascii_of_string k) (list_ascii_of_string k').
  induction l as [|a l IH]; intros [|b m] H; try discriminate; [reflexivity|].
  cbn [map] in H. apply cons_split in H as [H1 H2]. f_equal; [|apply IH; exact H2].
  rewrite <- (ascii_N_embedding a), <- (ascii_N_embedding b). f_equal. lia.
Qed.

Lemma prin_split p q r s : prin_bytes_ok p -> prin_bytes_ok q ->
  sip005_prin p ++ r = sip005_prin q ++ s -> p = q /\ r = s.
Proof.
  destruct p as [v h|v h n], q as [v' h'|v' h' n']; cbn [prin_bytes_ok sip005_prin app]; intros Hp Hq H;
    repeat match goal with H : _ /\ _ |- _ => destruct H end;
    apply cons_split in H as [Hz H]; try discriminate; apply cons_split in H as [-> H].
  - apply app_split in H as [-> ->]; [auto|lia].
  - rewrite <- !app_assoc in H. apply app_split in H as [-> H]; [|lia]. cbn [app] in H.
    apply cons_split in H as [Hz' H]. apply app_split in H as [-> ->]; [auto|unfold zlen in *; lia].
Qed.

(** first bytes *)
Definition head (v : value) : Z :=
  match v with
  | CInt _ => 0 | CUInt _ => 1 | CBuff _ => 2 | CBool b => if b then 3 else 4
  | CPrin (PStd _ _) | CCallable (PStd _ _) _ => 5
  | CPrin (PCon _ _ _) | CCallable (PCon _ _ _) _ => 6
  | COk _ => 7 | CErr _ => 8 | CNone => 9 | CSome _ => 10 | CList _ => 11 | CTuple _ => 12
  | CAscii _ => 13 | CUtf8 _ => 14
  end.
Lemma head_ser v : exists r, sip005 v = head v :: r.
Proof. destruct v; cbn [sip005 head]; eauto; destruct p; cbn [sip005_prin]; eauto. Qed.

Definition cancels (v : value) : Prop := forall w r s, clarity_value v -> clarity_value w ->
  sip005 v ++ r = sip005 w ++ s -> as_data v = as_data w /\ r = s.

Lemma same_head v w r s : sip005 v ++ r = sip005 w ++ s -> head v = head w.
Proof.
  intros H. destruct (head_ser v) as (a & Ha), (head_ser w) as (b & Hb). rewrite Ha, Hb in H.
  cbn [app] in H. apply cons_split in H. tauto.
Qed.

Lemma list_cancel vs : Forall cancels vs -> forall ws r s, length vs = length ws ->
  (fix go l := match l with [] => True | v :: l => clarity_value v /\ go l end) vs ->
  (fix go l := match l with [] => True | v :: l => clarity_value v /\ go l end) ws ->
  flat_map sip005 vs ++ r = flat_map sip005 ws ++ s -> map as_data vs = map as_data ws /\ r = s.
Proof.
  induction 1 as [|v vs Hv H IH]; intros [|w ws] r s Hl Hvs Hws He; try discriminate Hl.
  - split; [reflexivity|exact He].
  - destruct Hvs, Hws. cbn [flat_map] in He. rewrite <- !app_assoc in He.
    apply Hv in He as [E1 E2]; auto. apply IH in E2 as [E3 E4]; auto.
    cbn [map]. split; [congruence|exact E4].
Qed.
Lemma fields_cancel vs : Forall (fun f => cancels (snd f)) vs -> forall ws r s, length vs = length ws ->
  (fix go (fs : list (string * value)) := match fs with [] => True | (k, v) :: fs => zlen (chars k) < 256 /\ clarity_value v /\ go fs end) vs ->
  (fix go (fs : list (string * value)) := match fs with [] => True | (k, v) :: fs => zlen (chars k) < 256 /\ clarity_value v /\ go fs end) ws ->
  sip005_fields vs ++ r = sip005_fields ws ++ s ->
  map (fun f => (fst f, as_data (snd f))) vs = map (fun f => (fst f, as_data (snd f))) ws /\ r = s.
Proof.
  induction 1 as [|[k v] vs Hv H IH]; intros [|[k' w] ws] r s Hl Hvs Hws He; try discriminate Hl.
  - split; [reflexivity|exact He].
  - destruct Hvs as (K1 & V1 & R1), Hws as (K2 & V2 & R2). cbn [sip005_fields app] in He.
    apply cons_split in He as [E0 He]. rewrite <- !app_assoc in He.
    apply app_split in He as [E1 He]; [|unfold zlen in *; lia]. apply chars_inj in E1. subst k'.
    cbn [snd] in Hv. apply Hv in He as [E1 E2]; auto. apply IH in E2 as [E3 E4]; auto.
    cbn [map fst snd]. split; [congruence|exact E4].
Qed.

Lemma counted_split {A} (xs ys : list A) r s : zlen xs < 2 ^ 32 -> zlen ys < 2 ^ 32 ->
  u32_be (zlen xs) ++ r = u32_be (zlen ys) ++ s -> length xs = length ys /\ r = s.
Proof.
  intros Hx Hy H. unfold u32_be in H. apply app_split in H as [H1 H2]; [|rewrite !len_be_bytes; reflexivity].
  apply be_bytes_inj in H1; [|unfold zlen; change (256 ^ Z.of_nat 4) with (2 ^ 32); unfold zlen in *; lia..].
  unfold zlen in H1. split; [lia|exact H2].
Qed.

Ltac badhead := exfalso; match goal with H : head _ = head _ |- _ => cbn [head] in H;
  repeat match type of H with context [match ?x with _ => _ end] => destruct x end; discriminate H end.

Lemma prefix_free v : cancels v.
Proof.
  induction v using value_ind'; intros w r s Hv Hw Heq; pose proof (same_head _ _ _ _ Heq) as Hh;
    destruct w; try badhead; cbn [clarity_value as_data] in *.
  - (* int *)
    cbn [sip005 app] in Heq. apply cons_split in Heq as [_ Heq].
    apply app_split in Heq as [E1 E2]; [|rewrite !len_be_bytes; reflexivity].
    apply be_bytes_inj in E1; [|change (256 ^ Z.of_nat 16) with (2 ^ 128); apply Z.mod_pos_bound; lia..].
    split; [|exact E2]. f_equal.
    assert (z0 = z \/ z0 <> z) as [->|Hne] by lia; [reflexivity|exfalso].
    clear - E1 Hv Hw Hne. change (2 ^ 127) with 170141183460469231731687303715884105728 in *.
    change (2 ^ 128) with 340282366920938463463374607431768211456 in *. zify. Z.to_euclidean_division_equations. lia.
  - (* uint *)
    cbn [sip005 app] in Heq. apply cons_split in Heq as [_ Heq].
    apply app_split in Heq as [E1 E2]; [|rewrite !len_be_bytes; reflexivity].
    apply be_bytes_inj in E1; [|change (256 ^ Z.of_nat 16) with (2 ^ 128); assumption..].
    split; [congruence|exact E2].
  - (* bool *)
    cbn [sip005 app head] in *. apply cons_split in Heq as [_ Heq]. split; [|exact Heq].
    destruct b, b0; try discriminate Hh; reflexivity.
  - apply prin_split in Heq as [-> ->]; auto.
  - apply prin_split in Heq as [-> ->]; auto.
  - apply prin_split in Heq as [-> ->]; auto.
  - apply prin_split in Heq as [-> ->]; auto.
  - cbn [sip005 app] in Heq. apply cons_split in Heq as [_ Heq]. rewrite <- !app_assoc in Heq.
    destruct Hv, Hw. apply sized_split in Heq as [-> ->]; auto.
  - cbn [sip005 app] in Heq. apply cons_split in Heq as [_ Heq]. rewrite <- !app_assoc in Heq.
    destruct Hv, Hw. apply sized_split in Heq as [-> ->]; auto.
  - cbn [sip005 app] in Heq. apply cons_split in Heq as [_ Heq]. rewrite <- !app_assoc in Heq.
    destruct Hv as [L1 S1], Hw as [L2 S2]. apply sized_split in Heq as [Eu ->]; auto. split; [|reflexivity].
    f_equal. eapply C21_utf8_unique; [split; [exact S1|reflexivity]|split; [exact S2|exact Eu]].
  - cbn [sip005 app] in Heq. apply cons_split in Heq as [_ Heq]. rewrite <- !app_assoc in Heq.
    destruct Hv as [L1 S1], Hw as [L2 S2]. apply counted_split in Heq as [Hl Heq]; auto.
    apply (list_cancel _ H) in Heq as [E1 E2]; auto. split; [congruence|exact E2].
  - cbn [sip005 app] in Heq. apply cons_split in Heq as [_ Heq]. auto.
  - cbn [sip005 app] in Heq. apply cons_split in Heq as [_ Heq]. apply IHv in Heq as [E1 E2]; auto. split; [congruence|exact E2].
  - cbn [sip005 app] in Heq. apply cons_split in Heq as [_ Heq]. apply IHv in Heq as [E1 E2]; auto. split; [congruence|exact E2].
  - cbn [sip005 app] in Heq. apply cons_split in Heq as [_ Heq]. apply IHv in Heq as [E1 E2]; auto. split; [congruence|exact E2].
  - cbn [sip005 app] in Heq. fold sip005_fields in Heq. apply cons_split in Heq as [_ Heq]. rewrite <- !app_assoc in Heq.
    destruct Hv as [L1 S1], Hw as [L2 S2]. apply counted_split in Heq as [Hl Heq]; auto.
    apply (fields_cancel _ H) in Heq as [E1 E2]; auto. split; [congruence|exact E2].
Qed.

(** ** C31 *)
(** Equal encodings come from equal values (a trait reference counting as its principal). *)
Theorem C31_injective : forall v w, clarity_value v -> clarity_value w ->
  sip005 v = sip005 w -> as_data v = as_data w.
Proof.
  intros v w Hv Hw H. apply (prefix_free v w [] []); auto. rewrite !app_nil_r. exact H.
Qed.
Print Assumptions C31_injective.

(** No encoding is a proper prefix of another; hence a concatenation of encodings can be
    split in only one way. *)
Theorem C31_prefix_free : forall v w rest, clarity_value v -> clarity_value w ->
  sip005 w = sip005 v ++ rest -> rest = [] /\ as_data v = as_data w.
Proof.
  intros v w rest Hv Hw H. destruct (prefix_free v w rest [] Hv Hw) as [E1 E2]; [rewrite app_nil_r; auto|]. auto.
Qed.
Print Assumptions C31_prefix_free.

Theorem C31_unique_parse : forall vs ws, Forall clarity_value vs -> Forall clarity_value ws ->
  flat_map sip005 vs = flat_map sip005 ws -> map as_data vs = map as_data ws.
Proof.
  induction vs as [|v vs IH]; intros [|w ws] Hv Hw H.
  - reflexivity.
  - exfalso. destruct (head_ser w) as (r & Hr). cbn [flat_map] in H. rewrite Hr in H. discriminate H.
  - exfalso. destruct (head_ser v) as (r & Hr). cbn [flat_map] in H. rewrite Hr in H. discriminate H.
  - inversion Hv; inversion Hw; subst. cbn [flat_map] in H. apply prefix_free in H as [E1 E2]; auto.
    cbn [map]. f_equal; auto.
Qed.
Print Assumptions C31_unique_parse.

Example C31_ex : clarity_value (CTuple [("a"%string, CList [CSome (CInt (-1)); CNone]); ("name"%string, CUtf8 [233])]) /\
  sip005 (CTuple [("a"%string, CList [CSome (CInt (-1)); CNone]); ("name"%string, CUtf8 [233])]) =
  [12; 0; 0; 0; 2; 1; 97; 11; 0; 0; 0; 2; 10; 0] ++ repeat 255 16 ++ [9; 4; 110; 97; 109; 101; 14; 0; 0; 0; 2; 195; 169].
Proof. split; [cbn; unfold scalar; repeat split; try lia; repeat constructor; lia|vm_compute; reflexivity]. Qed.
