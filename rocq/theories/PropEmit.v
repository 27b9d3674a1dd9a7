(** * C28, C29, C33: emitted memory accesses and equality tests *)
From Coq Require Import ZArith String List Bool Lia.
Import ListNotations.
From Verif Require Import Wasm Std StdEnv WasmLogic WasmTac Spec Mem MemFacts Bytes SpecBytes SpecUtf8 Clar Codec Rep RepFacts ReadProofs WriteProofs ArgProofs
  Emit CallProofs EmitFacts EmitProofs Equal EqualProofs.
Open Scope string_scope.
Open Scope list_scope.
Open Scope Z_scope.

(** the locals in use before code was emitted have kept their values ([live]: allocated
    and not lying in the pool of returned locals) *)
Definition locals_kept (l : lst) (ls ls' : list val) : Prop :=
  length ls' = length ls /\ forall i, live l i -> nth_error ls' i = nth_error ls i.

(** ** C28 *)
(** The code storing the value on top of the stack, then the code loading it: the
    stack is as before, memory has only changed in the bytes of the value, and no
    local in use has changed. *)
Theorem C28_store_then_load : forall {HS} (E : env HS) t ol off l c l' ls k st a ws,
  write_to_memory t ol off l = (c, l') -> lwf l -> live l ol -> no_unknown t ->
  nth_error ls ol = Some (VI32 a) -> (llen l' <= length ls)%nat ->
  Forall2 wtyped (clar2wasm_ty t) ws ->
  0 <= a -> 0 <= off -> a + off + get_type_size t <= msize (smem st) <= 2 ^ 32 ->
  exists ls' m', runs E (c ++ read_from_memory t ol off) (mkcfg ls (rev ws ++ k) st)
                        (ONormal (mkcfg ls' (rev ws ++ k) (with_mem st m'))) /\
    only_changes (smem st) m' (a + off) (get_type_size t) /\ locals_kept l ls ls'.
Proof.
  intros HS E t ol off l c l' ls k st a ws HC Hw Hl Hu Hol Hn Hws Ha Hoff Hb.
  destruct (write_memory_ok E t _ _ _ _ _ HC Hw Hl) as (_ & X2).
  assert (HW : wp E (c ++ read_from_memory t ol off) (mkcfg ls (rev ws ++ k) st) (fun o => exists ls' m',
    o = ONormal (mkcfg ls' (rev ws ++ k) (with_mem st m')) /\ only_changes (smem st) m' (a + off) (get_type_size t) /\ locals_kept l ls ls')).
  { eapply X2; eauto. intros ls' m' K1 K2 K3. rewrite <- (app_nil_r (read_from_memory t ol off)).
    eapply (read_memory_ok E t); [rewrite (lkeep_get _ _ _ _ K1); eauto|apply blank_typed; exact Hws|exact K3|].
    apply wp_nil. exists ls', m'. split; [|split; [exact K2|exact K1]]. rewrite !blank_id; auto. apply blank_typed; auto. }
  destruct HW as (f0 & o & H1 & ls' & m' & -> & H2 & H3). exists ls', m'. split; [exists f0; exact H1|]. split; auto.
Qed.
Print Assumptions C28_store_then_load.

(** For every type, including those with a part of unknown type (which no value
    inhabits and whose word is loaded as 0): what is loaded represents the value
    that was stored. *)
Theorem C28_values_survive : forall {HS} (E : env HS) t v ol off l c l' ls k st a ws P,
  write_to_memory t ol off l = (c, l') -> lwf l -> live l ol ->
  nth_error ls ol = Some (VI32 a) -> (llen l' <= length ls)%nat ->
  rep (smem st) P t v ws -> (forall x, P x -> ~ (a + off <= x < a + off + get_type_size t)) ->
  0 <= a -> 0 <= off -> a + off + get_type_size t <= msize (smem st) <= 2 ^ 32 ->
  exists ls' m' ws', runs E (c ++ read_from_memory t ol off) (mkcfg ls (rev ws ++ k) st)
                            (ONormal (mkcfg ls' (rev ws' ++ k) (with_mem st m'))) /\
    rep m' P t v ws' /\ only_changes (smem st) m' (a + off) (get_type_size t) /\ locals_kept l ls ls'.
Proof.
  intros HS E t v ol off l c l' ls k st a ws P HC Hw Hl Hol Hn Hr HP Ha Hoff Hb. pose proof (rep_typed _ _ _ _ _ Hr) as Hws.
  destruct (write_memory_ok E t _ _ _ _ _ HC Hw Hl) as (_ & X2).
  assert (HW : wp E (c ++ read_from_memory t ol off) (mkcfg ls (rev ws ++ k) st) (fun o => exists ls' m' ws',
    o = ONormal (mkcfg ls' (rev ws' ++ k) (with_mem st m')) /\ rep m' P t v ws' /\ only_changes (smem st) m' (a + off) (get_type_size t) /\ locals_kept l ls ls')).
  { eapply X2; eauto. intros ls' m' K1 K2 K3. rewrite <- (app_nil_r (read_from_memory t ol off)).
    eapply (read_memory_ok E t); [rewrite (lkeep_get _ _ _ _ K1); eauto|apply blank_typed; exact Hws|exact K3|].
    apply wp_nil. eexists ls', m', _. split; [reflexivity|]. split; [|split; [exact K2|exact K1]].
    apply blank_rep, blank_rep. destruct K2 as (K2a & K2b). apply (rep_frame (smem st) m' P P); [exact K2a| |auto|exact Hr].
    intros x Hx. apply K2b. specialize (HP x Hx). lia. }
  destruct HW as (f0 & o & H1 & ls' & m' & ws' & -> & H2 & H3 & H4). exists ls', m', ws'. split; [exists f0; exact H1|]. split; auto.
Qed.
Print Assumptions C28_values_survive.

Definition ex_env : env unit := mkenv (fun _ => None) (fun _ => None) [].
Definition ex_store : store unit := mkstore (mkmem (fun _ => 0) 65536) [] tt.
Definition ex_t : ty := TTuple [("a", TOpt TInt); ("b", TResp (TBuff 10) TBool)].
Definition ex_l : lst := mkl [T32; T64] [] [1%nat].
Definition ex_ws : list val := [VI32 1; VI64 5; VI64 7; VI32 0; VI32 4000; VI32 3; VI32 1].
Example C28_ex_hyps : lwf ex_l /\ live ex_l 0 /\ no_unknown ex_t /\ Forall2 wtyped (clar2wasm_ty ex_t) ex_ws.
Proof.
  split; [|split; [|split]].
  - split; [repeat constructor; cbn; tauto|repeat constructor].
  - split; [cbn; lia|cbn; intuition discriminate].
  - cbn. tauto.
  - repeat constructor; cbn; lia.
Qed.
Example C28_ex : let '(c, l') := write_to_memory ex_t 0 4 ex_l in
  match execs ex_env 1 (c ++ read_from_memory ex_t 0 4) (mkcfg ([VI32 100] ++ repeat (VI32 0) 20) (rev ex_ws ++ [VI32 9]) ex_store) with
  | ONormal s => cstack s = rev ex_ws ++ [VI32 9] /\ nth_error (clocals s) 0 = Some (VI32 100)
  | _ => False
  end.
Proof. vm_compute. auto. Qed.

(** ** C29 *)
(** what emitted code stores, the host reads as the same value *)
Theorem C29_emitted_store_host_read : forall {HS} (E : env HS) t v ol off l c l' ls k st a ws P,
  ty_ok t -> has_type t v ->
  write_to_memory t ol off l = (c, l') -> lwf l -> live l ol ->
  nth_error ls ol = Some (VI32 a) -> (llen l' <= length ls)%nat ->
  rep (smem st) P t v ws -> (forall x, P x -> ~ (a + off <= x < a + off + get_type_size t)) ->
  0 <= a -> 0 <= off -> a + off + get_type_size t <= msize (smem st) < 2 ^ 31 ->
  exists ls' m', runs E c (mkcfg ls (rev ws ++ k) st) (ONormal (mkcfg ls' k (with_mem st m'))) /\
    read_from_wasm_indirect m' t (a + off) = Some v.
Proof.
  intros HS E t v ol off l c l' ls k st a ws P Hok Ht HC Hw Hl Hol Hn Hr HP Ha Hoff Hb. pose proof (rep_typed _ _ _ _ _ Hr) as Hws.
  destruct (write_memory_ok E t _ _ _ _ _ HC Hw Hl) as (_ & X2).
  assert (HW : wp E c (mkcfg ls (rev ws ++ k) st) (fun o => exists ls' m',
    o = ONormal (mkcfg ls' k (with_mem st m')) /\ read_from_wasm_indirect m' t (a + off) = Some v)).
  { rewrite <- (app_nil_r c). eapply X2; eauto; [lia|]. intros ls' m' K1 K2 K3. apply wp_nil. exists ls', m'. split; [reflexivity|].
    eapply (read_indirect_back m' P); [destruct K2 as (-> & _); change h32 with (2 ^ 31); lia|exact Hok| |exact Ht|exact K3].
    apply blank_rep. destruct K2 as (K2a & K2b). apply (rep_frame (smem st) m' P P); [exact K2a| |auto|exact Hr]. intros x Hx. apply K2b. specialize (HP x Hx). lia. }
  destruct HW as (f0 & o & H1 & ls' & m' & -> & H2). exists ls', m'. split; [exists f0; exact H1|]. exact H2.
Qed.
Print Assumptions C29_emitted_store_host_read.

(** what the host writes, emitted code loads as a representation of the same value *)
Theorem C29_host_write_emitted_load : forall {HS} (E : env HS) t v m off ioff m' w iw ol ls k (st : store HS),
  ty_ok t -> no_trait t -> has_type t v -> msize m < 2 ^ 31 ->
  0 <= off -> off + get_type_size t <= msize m -> 0 <= ioff -> ioff + (get_type_in_memory_size t true - get_type_size t) <= msize m ->
  (off + get_type_size t <= ioff \/ ioff + (get_type_in_memory_size t true - get_type_size t) <= off) ->
  write_to_wasm m t off ioff v true = Some (m', w, iw) ->
  smem st = m' -> nth_error ls ol = Some (VI32 off) ->
  exists ws, runs E (read_from_memory t ol 0) (mkcfg ls k st) (ONormal (mkcfg ls (rev ws ++ k) st)) /\
    rep m' (fun x => ioff <= x < ioff + iw) t v ws.
Proof.
  intros HS E t v m off ioff m' w iw ol ls k st Hok Hnt Ht Hm H0 H1 H2 H3 H4 HC Hst Hol.
  pose proof (payload_bound t Hok v Ht) as Hb.
  destruct (write_ok t Hok Hnt v m off ioff Ht ltac:(lia) ltac:(lia) ltac:(lia) ltac:(lia) ltac:(lia) ltac:(lia)) as (m2 & ws & E1 & _ & Hw & Hr).
  rewrite HC in E1. assert (m2 = m' /\ iw = payload t v) as (-> & ->) by (split; congruence).
  exists (blank t ws). split; [|apply blank_rep; exact Hr]. apply wp_runs. rewrite <- (app_nil_r (read_from_memory t ol 0)).
  eapply (read_memory_ok E t); [exact Hol|eapply rep_typed; exact Hr|rewrite Hst, Z.add_0_r; exact Hw|]. apply wp_nil. reflexivity.
Qed.
Print Assumptions C29_host_write_emitted_load.

Definition ex_v : value := CTuple [("a", CSome (CInt (5 + 7 * 2 ^ 64))); ("b", CErr (CBool true))].
Example C29_ex : has_type ex_t ex_v /\ ty_ok ex_t /\ no_trait ex_t /\
  rep (smem ex_store) (fun _ => False) ex_t ex_v ex_ws /\
  match execs ex_env 1 (fst (write_to_memory ex_t 0 4 ex_l)) (mkcfg ([VI32 100] ++ repeat (VI32 0) 20) (rev ex_ws ++ [VI32 9]) ex_store) with
  | ONormal s => read_from_wasm_indirect (smem (cstore s)) ex_t 104 = Some ex_v
  | _ => False
  end.
Proof.
  split; [split; [reflexivity|]; split; [split; vm_compute; congruence|]; split; [reflexivity|]; split; exact I|]. split; [|split; [cbn; tauto|split]].
  - split; [discriminate|]. split; [repeat constructor; cbn; intuition discriminate|]. cbn. unfold max_value_size. intuition lia.
  - exists [VI32 1; VI64 5; VI64 7], [VI32 0; VI32 4000; VI32 3; VI32 1]. split; [reflexivity|]. split; [reflexivity|]. split.
    + exists [VI64 5; VI64 7]. split; reflexivity.
    + exists [VI32 0; VI32 4000; VI32 3; VI32 1], []. split; [reflexivity|]. split; [reflexivity|]. split; [|reflexivity].
      exists [VI32 4000; VI32 3], [VI32 1]. split; [reflexivity|]. split; [repeat constructor; cbn; lia|reflexivity].
  - vm_compute. reflexivity.
Qed.

(** ** C33 *)
(** Two values of the same type saved in locals: the emitted comparison pushes 1
    exactly when they are equal, and otherwise 0; the store is untouched; the
    locals of the first operand, and all others in use except those of the second
    operand, keep their values. *)
Theorem C33_equality_test : forall {HS} (E : env HS) t a b l c l' ls k (st : store HS) v1 v2 ws1 ws2 P,
  ty_ok t -> equal_implemented t = true -> has_type t v1 -> has_type t v2 ->
  wasm_equal t a b l = (c, l') -> lwf l -> Forall (live l) (a ++ b) -> NoDup (a ++ b) ->
  lvals ls a ws1 -> lvals ls b ws2 -> (llen l' <= length ls)%nat ->
  rep (smem st) P t v1 ws1 -> rep (smem st) P t v2 ws2 ->
  exists r ls', runs E c (mkcfg ls k st) (ONormal (mkcfg ls' (VI32 r :: k) st)) /\
    (v1 = v2 -> r = 1) /\ (v1 <> v2 -> r = 0) /\
    forall i, live l i -> ~ In i b -> nth_error ls' i = nth_error ls i.
Proof.
  intros HS E t a b l c l' ls k st v1 v2 ws1 ws2 P Hok Him T1 T2 HC Hw HL Nd V1 V2 Hn R1 R2. apply Forall_app in HL. destruct HL as (La & Lb).
  assert (N1 : length a = length (clar2wasm_ty t)) by (rewrite (lvals_len _ _ _ V1); eapply rep_len; eauto).
  assert (N2 : length b = length (clar2wasm_ty t)) by (rewrite (lvals_len _ _ _ V2); eapply rep_len; eauto).
  destruct (wasm_equal_ok E t Hok Him _ _ _ _ _ HC Hw La Lb Nd N1 N2) as (_ & X2).
  assert (HW : wp E c (mkcfg ls k st) (fun o => exists r ls', o = ONormal (mkcfg ls' (VI32 r :: k) st) /\
    (v1 = v2 -> r = 1) /\ (v1 <> v2 -> r = 0) /\ forall i, live l i -> ~ In i b -> nth_error ls' i = nth_error ls i)).
  { rewrite <- (app_nil_r c). eapply X2; [exact Hn|exact V1|exact V2|exact T1|exact T2|exact R1|exact R2|]. intros r ls' Hr K. apply wp_nil. exists (b2z r), ls'. split; [reflexivity|]. split; [|split].
    - intros HX. apply Hr in HX. subst r. reflexivity.
    - intros HX. destruct r; [exfalso; apply HX, Hr; reflexivity|reflexivity].
    - intros i Hi Hb. destruct K as (_ & K). apply K. apply live_hide. split; auto. }
  destruct HW as (f0 & o & H1 & r & ls' & -> & H2 & H3 & H4). exists r, ls'. split; [exists f0; exact H1|]. split; auto.
Qed.
Print Assumptions C33_equality_test.

Definition ex_le : lst := mkl [T32; T32; T32; T32] [] [].
Definition ex_mem : mem := write_bytes (mkmem (fun _ => 0) 65536) 100
  (words_bytes [VI32 1; VI64 5; VI64 7; VI32 0; VI64 6; VI64 6] ++ words_bytes [VI32 1; VI64 5; VI64 7; VI32 0; VI64 9; VI64 9]
   ++ words_bytes [VI32 1; VI64 5; VI64 7; VI32 1; VI64 9; VI64 9]).
Definition ex_run (o1 o2 : Z) : option (list val) :=
  let '(c, _) := wasm_equal (TList 4 (TOpt TInt)) [0; 1]%nat [2; 3]%nat ex_le in
  match execs ex_env 40 c (mkcfg ([VI32 o1; VI32 40; VI32 o2; VI32 40] ++ repeat (VI32 0) 20) [] (mkstore ex_mem [] tt)) with
  | ONormal s => Some (cstack s ++ firstn 2 (clocals s))
  | _ => None
  end.
(** [some 5 + 7*2^64, none] in two representations, and a different list *)
Example C33_ex_equal : ex_run 100 140 = Some [VI32 1; VI32 100; VI32 40].
Proof. vm_compute. reflexivity. Qed.
Example C33_ex_different : ex_run 100 180 = Some [VI32 0; VI32 100; VI32 40].
Proof. vm_compute. reflexivity. Qed.
Example C33_ex_hyps : ty_ok (TList 4 (TOpt TInt)) /\ equal_implemented (TList 4 (TOpt TInt)) = true /\ lwf ex_le /\
  Forall (live ex_le) ([0; 1] ++ [2; 3])%nat /\ NoDup ([0; 1] ++ [2; 3])%nat.
Proof.
  split; [cbn; unfold max_value_size; lia|]. split; [reflexivity|]. split; [split; constructor|].
  split; [repeat constructor; cbn; try lia; tauto|]. repeat constructor; cbn; intuition discriminate.
Qed.
