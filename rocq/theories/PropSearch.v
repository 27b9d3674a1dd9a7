(** * Property C22: comparing Clarity names and searching the key table of a tuple. *)
From Coq Require Import ZArith String List Bool Lia Sorted.
Import ListNotations.
From Verif Require Import Wasm Std StdEnv WasmLogic WasmTac Spec SpecBytes Mem MemFacts BuffProofs PropBytes NameSearch.
Open Scope string_scope.
Open Scope list_scope.
Open Scope Z_scope.

(** -1 as a WASM i32 *)
Definition minus_one : Z := 2 ^ 32 - 1.

(** names are never empty (Clarity's name grammar) *)
Theorem C22_compare_names : forall {HS} (E : env HS), has_std E -> forall a xs b ys st,
  holds (smem st) a xs -> holds (smem st) b ys -> xs <> [] -> ys <> [] ->
  exists r, returns E "compare-clarity-names" [VI32 a; vlen xs; VI32 b; vlen ys] st [VI32 r] /\
    (r = 0 <-> xs = ys) /\ (r = minus_one <-> lex_lt xs ys) /\ (r = 1 <-> lex_lt ys xs).
Proof.
  intros HS E HE a xs b ys st HX HY Nx Ny. exists (cmp_code xs ys).
  split; [apply wpf_calls; apply (compare_names_wp E HE); auto|]. change minus_one with 4294967295.
  destruct (cmp_code_cases _ _ _ _ _ _ HX HY) as [[-> H]|[[-> H]|[-> H]]].
  - subst ys. pose proof (C08_lex_irrefl xs). split; [tauto|]. split; split; intros; try discriminate; tauto.
  - split; [split; intros; [discriminate|subst ys; destruct (C08_lex_irrefl xs H)]|]. split; [tauto|].
    split; intros K; [discriminate|]. destruct (C08_lex_irrefl _ (C08_lex_trans _ _ _ H K)).
  - split; [split; intros; [discriminate|subst ys; destruct (C08_lex_irrefl xs H)]|]. split; [|tauto].
    split; intros K; [discriminate|]. destruct (C08_lex_irrefl _ (C08_lex_trans _ _ _ H K)).
Qed.
Print Assumptions C22_compare_names.

(** [key_table base names] is the table the compiler emits for the (sorted) keys of a tuple type
    (deserialize.rs 1019-1041).  Searching it returns the key's index, or -1 if it is absent. *)
Theorem C22_bsearch : forall {HS} (E : env HS), has_std E -> forall base names a e st,
  holds (smem st) base (key_table base names) -> msize (smem st) < 2 ^ 32 ->
  names <> [] -> Forall (fun s => s <> []) names -> StronglySorted lex_lt names ->
  holds (smem st) a e -> e <> [] ->
  (forall i, (i < length names)%nat -> nth i names [] = e ->
     returns E "stdlib.bsearch-clarity-name" [VI32 base; vlen (key_table base names); VI32 a; vlen e] st [VI32 (Z.of_nat i)]) /\
  (~ In e names ->
     returns E "stdlib.bsearch-clarity-name" [VI32 base; vlen (key_table base names); VI32 a; vlen e] st [VI32 minus_one]).
Proof.
  intros HS E HE base names a e st HT Hms Hne Hnn Hs He Hen. change (2 ^ 32) with m32 in Hms.
  destruct (key_table_row _ _ _ Hms HT) as (H1 & H2 & H3). pose proof (holds_len _ _ _ HT) as (H4 & _).
  split.
  - intros i Hi Hie. apply wpf_calls. apply (bsearch_wp E HE base _ names); auto.
    + intros i' Hi' Hie'. do 2 f_equal. do 2 f_equal. assert (Hij : forall k l, (k < l)%nat -> (l < length names)%nat -> lex_lt (nth k names []) (nth l names [])).
      { clear - Hs. induction Hs as [|x l H1 IH HF]; intros k q Hk Hq; [cbn in Hq; lia|].
        destruct q as [|q]; [lia|]. cbn [length] in Hq. destruct k as [|k]; cbn [nth].
        - rewrite Forall_forall in HF. apply HF. apply nth_In. lia.
        - apply IH; lia. }
      destruct (Nat.lt_trichotomy i i') as [K|[K|K]]; [|auto|].
      * specialize (Hij i i' K Hi'). rewrite Hie, Hie' in Hij. destruct (C08_lex_irrefl _ Hij).
      * specialize (Hij i' i K Hi). rewrite Hie, Hie' in Hij. destruct (C08_lex_irrefl _ Hij).
    + intros Hni. destruct Hni. rewrite <- Hie. apply nth_In. auto.
  - intros Hni. apply wpf_calls. apply (bsearch_wp E HE base _ names); auto.
    intros i Hi Hie. destruct Hni. rewrite <- Hie. apply nth_In. auto.
Qed.
Print Assumptions C22_bsearch.

(** The restriction to non-empty names matters: the comparison reads one byte before looking at
    the lengths.  An empty byte sequence in front of a 'b' compares greater than "a". *)
Definition c22_store : store unit := with_mem blank_store (write_bytes (smem blank_store) 2000 [98; 97]).
Theorem C22_compare_empty_refuted :
  ~ (forall a xs b ys (st : store unit), holds (smem st) a xs -> holds (smem st) b ys ->
     exists r, returns std_env "compare-clarity-names" [VI32 a; vlen xs; VI32 b; vlen ys] st [VI32 r] /\ (r = minus_one <-> lex_lt xs ys)).
Proof.
  intros H. specialize (H 2000 [] 2001 [97] c22_store).
  destruct H as (r & Hr & Hlt).
  - split; [vm_compute; discriminate|split; [split; vm_compute; discriminate|vm_compute; reflexivity]].
  - split; [vm_compute; discriminate|split; [split; vm_compute; discriminate|vm_compute; reflexivity]].
  - assert (W : returns std_env "compare-clarity-names" [VI32 2000; vlen []; VI32 2001; vlen [97]] c22_store [VI32 1]).
    { apply (calls_compute _ 60); [vm_compute; reflexivity|discriminate]. }
    pose proof (calls_det _ _ _ _ _ _ Hr W) as C. assert (K : r = 1) by congruence. subst r.
    assert (lex_lt [] [97]) by constructor. apply Hlt in H. discriminate H.
Qed.
Print Assumptions C22_compare_empty_refuted.

(** a concrete table with the keys "amount", "to", "token" *)
Definition c22_names : list (list Z) := [[97; 109; 111; 117; 110; 116]; [116; 111]; [116; 111; 107; 101; 110]].
Example C22_ex_sorted : StronglySorted lex_lt c22_names /\ Forall (fun s => s <> []) c22_names.
Proof.
  split; [|repeat constructor; discriminate].
  repeat first [apply SSorted_nil | apply SSorted_cons | apply Forall_nil | apply Forall_cons];
    repeat first [apply lex_nil | apply lex_head; reflexivity | apply lex_tail].
Qed.
Definition c22_table : store unit :=
  with_mem blank_store (write_bytes (write_bytes (smem blank_store) 2000 (key_table 2000 c22_names)) 3000 [116; 111]).
Example C22_ex_holds : holds (smem c22_table) 2000 (key_table 2000 c22_names).
Proof. split; [vm_compute; discriminate|split; [split; vm_compute; discriminate|vm_compute; reflexivity]]. Qed.
Example C22_ex_found : returns std_env "stdlib.bsearch-clarity-name" [VI32 2000; VI32 32; VI32 3000; VI32 2] c22_table [VI32 1].
Proof. apply (calls_compute _ 90); [vm_compute; reflexivity|discriminate]. Qed.
Example C22_ex_absent : returns std_env "stdlib.bsearch-clarity-name" [VI32 2000; VI32 32; VI32 3001; VI32 1] c22_table [VI32 minus_one].
Proof. apply (calls_compute _ 90); [vm_compute; reflexivity|discriminate]. Qed.
