(** * C56: from-consensus-buff? *)
From Coq Require Import ZArith String Ascii List Bool Lia Sorted.
Import ListNotations.
From Verif Require Import Wasm Std StdEnv WasmLogic WasmTac Spec Mem MemFacts Bytes SpecBytes SpecUtf8 Clar Rep RepFacts Emit CallProofs EmitFacts EmitProofs
  ReadProofs Equal EqualProofs NameProofs NameSearch SpecSer SpecSkip SkipProofs SerProofs PropSer SpecDeser Deser DeserProofs DeserSeq DeserCtl DeserList DeserTuple DeserTupleMain DeserAll DeserUniq PropEmit.
Open Scope string_scope.
Open Scope list_scope.
Open Scope Z_scope.

(** bytes the word reserves on the call stack *)
Definition frame (t : ty) : Z := call_stack_size (TOpt t) true true.

(** The code of [(from-consensus-buff? t b)] is about to run on a buffer holding [bs], which lies at
    [a], below the stack pointer [sp]; the word's frame fits in memory, and the tables of the keys
    of the tuples in [t] (sorted, as in the module's data section) lie outside the frame. *)
Definition at_word {HS} (tab : list string -> Z) (t : ty) (l l' : lst) (ls : list val) (st : store HS) (bs : list Z) (a sp : Z) : Prop :=
  ty_ok t /\ lwf l /\ (llen l' <= length ls)%nat /\ gget (sglob st) "stack-pointer" = Some (VI32 sp) /\
  holds (smem st) a bs /\ a + zlen bs <= sp /\ a + zlen bs < 2 ^ 31 /\ sp + frame t <= msize (smem st) < 2 ^ 32 /\
  tables tab (smem st) (fun x => x < sp \/ sp + frame t <= x) t.

(** The code ends normally, having replaced the buffer on the stack by the words of the
    optional [r]; the stack pointer has moved past the frame, only the frame has changed in
    memory, and the locals in use are as before. *)
Definition word_gives {HS} (E : env HS) (t : ty) (c : list instr) (l : lst) (ls : list val) (stk : list val) (st : store HS) (bs : list Z) (a sp : Z) (r : value) : Prop :=
  exists ls' m' ws,
    runs E c (mkcfg ls (VI32 (zlen bs) :: VI32 a :: stk) st)
      (ONormal (mkcfg ls' (rev ws ++ stk) (mkstore m' (gset (sglob st) "stack-pointer" (VI32 (sp + frame t))) (shost st)))) /\
    rep m' (fun x => a <= x < a + zlen bs \/ sp <= x < sp + frame t) (TOpt t) r ws /\
    only_changes (smem st) m' sp (frame t) /\ locals_kept l ls ls'.

Lemma frame_pos t : ty_ok t -> 0 < frame t.
Proof.
  intros H. unfold frame, call_stack_size. pose proof (room_frame t H). pose proof (room_nonneg t H). pose proof (size_nonneg t). cbn [get_type_size get_type_in_memory_size]. destruct (is_in_memory_type (TOpt t)); lia.
Qed.
Lemma word_run {HS} (E : env HS) (HE : has_std E) tab t l c l' ls stk st bs a sp o : from_consensus_buff tab t l = (c, l') -> at_word tab t l l' ls st bs a sp ->
  want t (smem st) a (a + zlen bs) o ->
  wp E c (mkcfg ls (VI32 (zlen bs) :: VI32 a :: stk) st) (fun out => exists ls' m' ws,
    out = ONormal (mkcfg ls' (rev ws ++ stk) (mkstore m' (gset (sglob st) "stack-pointer" (VI32 (sp + frame t))) (shost st))) /\
    lkeep l ls ls' /\ only_changes (smem st) m' sp (frame t) /\ result (smem st) t a (a + zlen bs) o m' (fun x => a <= x < a + zlen bs \/ sp <= x < sp + frame t) ws).
Proof.
  intros HC (A1 & A2 & A3 & A4 & A5 & A6 & A7 & A8 & A9) HW. pose proof (holds_len _ _ _ A5) as (B1 & B2 & B3). pose proof (frame_pos t A1). pose proof (zlen_nonneg bs).
  change (2 ^ 32) with m32 in A8. eapply word_wp; eauto; fold (frame t); lia.
Qed.

(** Every byte sequence from which a value of the type can be read (tuples with the items in
    any order, unknown items dropped) gives that value. *)
Theorem C56_reads : forall {HS} (E : env HS), has_std E -> forall tab t l c l' ls stk (st : store HS) bs a sp v,
  from_consensus_buff tab t l = (c, l') -> at_word tab t l l' ls st bs a sp -> readable t v bs ->
  word_gives E t c l ls stk st bs a sp (CSome v).
Proof.
  intros HS E HE tab t l c l' ls stk st bs a sp v HC HA HR. assert (HA' := HA). destruct HA' as (A1 & A2 & A3 & A4 & A5 & A6 & A7 & A8 & A9).
  destruct (word_run E HE tab t l c l' ls stk st bs a sp (Some (v, bs)) HC HA) as (f0 & out & H1 & ls' & m' & ws & -> & K1 & K2 & K3); [split; [exact HR|]; split; [exact A5|lia]|].
  exists ls', m', ws. split; [exists f0; exact H1|]. split; [|split; [exact K2|exact K1]]. destruct K3 as [(v' & bs' & _ & _ & _ & (-> & _) & K3)|(_ & K3)]; [exact K3|lia].
Qed.
Print Assumptions C56_reads.

(** ** The canonical encoding *)
Lemma name_bytes n : contract_name n -> Forall byte n.
Proof.
  intros [->|(c & r & -> & Hc & Hr)]; [vm_compute; repeat constructor; congruence|].
  assert (L : forall c, is_letter c = true -> byte c) by (unfold is_letter, byte; intros x Hx; lia).
  constructor; [auto|]. apply Forall_forall. intros x Hx. rewrite forallb_forall in Hr. specialize (Hr x Hx). unfold is_name_char in Hr. unfold is_letter, is_digit in Hr. unfold byte. lia.
Qed.
Lemma prin_bytes p : prin_ok p -> prin_bytes_ok p.
Proof.
  destruct p as [v h|v h n]; cbn [prin_ok prin_bytes_ok].
  - unfold prin_std_ok. intros (H1 & H2 & H3). split; [unfold byte; lia|]. split; [exact H2|exact H3].
  - unfold prin_std_ok. intros ((H1 & H2 & H3) & H4 & H5). split; [unfold byte; lia|]. split; [exact H2|]. split; [exact H3|]. split; [unfold zlen; lia|apply name_bytes; exact H4].
Qed.
Lemma canon_list t : (forall v, has_type t v -> readable t v (sip005 v)) -> forall vs, Forall (has_type t) vs -> Forall2 (readable t) vs (map sip005 vs).
Proof. intros H vs F. induction F as [|v vs Hv F IH]; cbn [map]; constructor; auto. Qed.
Definition items (vs : list (string * value)) : list item := map (fun f => (chars (fst f), sip005 (snd f))) vs.
Lemma items_bytes vs : flat_map item_bytes (items vs) = sip005_fields vs.
Proof. induction vs as [|[k v] vs IH]; [reflexivity|]. cbn [items map flat_map sip005_fields fst snd]. fold (items vs). rewrite IH. unfold item_bytes. cbn [fst snd]. cbn [app]. rewrite <- app_assoc. reflexivity. Qed.
Lemma items_keys vs : map fst (items vs) = map chars (map fst vs).
Proof. unfold items. rewrite !map_map. reflexivity. Qed.
Lemma nodup_count (l : list (list Z)) x : NoDup l -> In x l -> count_occ zlist_dec l x = 1%nat.
Proof. intros H1 H2. apply (NoDup_count_occ' zlist_dec) with (l := l); assumption. Qed.
Definition typed_fields : list (string * ty) -> list (string * value) -> Prop :=
  fix go fs vs {struct fs} := match fs, vs with [], [] => True | (k, t) :: fs, (k', v) :: vs => k = k' /\ has_type t v /\ go fs vs | _, _ => False end.
Lemma typed_keys fs : forall vs, typed_fields fs vs -> map fst vs = map fst fs.
Proof. induction fs as [|[k t] fs IH]; intros [|[k' v] vs] H; cbn [typed_fields] in H; try contradiction; [reflexivity|]. destruct H as (-> & _ & H). cbn [map fst]. f_equal. auto. Qed.
Lemma tables_len tab m K fs : tables tab m K (TTuple fs) -> zlen fs < 2 ^ 32.
Proof.
  intros ((_ & H & _) & _). apply holds_len in H as (H1 & H2 & H3). unfold key_table in H2. rewrite !app_length, !map_length, len_flat_le4, len_key_offsets, !map_length in H2. change (length (le4 _)) with 4%nat in H2. unfold zlen. change (2 ^ 32) with m32. lia.
Qed.
Lemma canonical tab m K t : ty_ok t -> tables tab m K t -> forall v, has_type t v -> readable t v (sip005 v).
Proof.
  induction t using ty_ind'; intros Hok HT v Hv; destruct v; cbn [has_type] in Hv; try contradiction; cbn [readable].
  - auto.
  - auto.
  - reflexivity.
  - split; [apply prin_bytes; exact Hv|reflexivity].
  - destruct Hv as (-> & Hp & _). split; [reflexivity|]. split; [apply prin_bytes; exact Hp|reflexivity].
  - destruct Hv as (H1 & H2). split; [exact H1|]. split; [exact H2|reflexivity].
  - destruct Hv as (H1 & H2). split; [exact H1|]. split; [exact H2|reflexivity].
  - destruct Hv as (H1 & H2). split; [exact H1|]. split; [exact H2|reflexivity].
  - destruct Hv as (H1 & H2). destruct Hok as (_ & Hok). split; [exact H1|]. exists (map sip005 vs). cbn [sip005]. split; [rewrite flat_map_concat_map; reflexivity|]. apply canon_list; [intros v Hv; apply IHt; auto|exact H2].
  - reflexivity.
  - exists (sip005 v). split; [reflexivity|]. apply IHt; auto.
  - exists (sip005 v). split; [reflexivity|]. apply IHt1; [apply Hok|apply HT|exact Hv].
  - exists (sip005 v). split; [reflexivity|]. apply IHt2; [apply Hok|apply HT|exact Hv].
  - change (typed_fields fs fs0) in Hv. rename fs0 into vs. rewrite ty_ok_tuple in Hok. destruct Hok as (_ & Hnd & Hfok). pose proof (tables_len _ _ _ _ HT) as HL. destruct HT as (_ & HT). change (tables_fields tab m K fs) in HT.
    assert (HK := typed_keys _ _ Hv). assert (Hzl : zlen vs = zlen fs) by (unfold zlen; rewrite <- (map_length fst vs), HK, map_length; reflexivity).
    exists (items vs). assert (Hzi : zlen (items vs) = zlen vs) by (unfold zlen, items; rewrite map_length; reflexivity). split; [rewrite items_bytes, Hzi; reflexivity|]. split; [lia|]. split; [exact HK|].
    split. { intros k Hk. rewrite items_keys, HK. apply nodup_count; [apply nodup_chars; exact Hnd|apply in_map; exact Hk]. }
    split. { intros it Hit. left. rewrite <- (map_map fst chars fs), <- HK, <- items_keys. apply in_map. exact Hit. }
    change (readable_fields (items vs) fs vs). assert (G : forall its fs vs, Forall (fun f => ty_ok (snd f) -> tables tab m K (snd f) -> forall v, has_type (snd f) v -> readable (snd f) v (sip005 v)) fs -> fields_ok fs -> tables_fields tab m K fs -> typed_fields fs vs ->
      (forall it, In it (items vs) -> In it its) -> readable_fields its fs vs).
    { clear. intros its. induction fs as [|[k t] fs IH]; intros [|[k' v] vs] F Hok HT Hv Hin; cbn [typed_fields readable_fields] in *; try exact I; try contradiction. inversion F as [|? ? F1 F2]; subst. destruct Hok as (Ho1 & Ho2). destruct HT as (Ht1 & Ht2). destruct Hv as (<- & Hv1 & Hv2). cbn [snd] in F1.
      split; [exists (sip005 v); split; [apply Hin; left; reflexivity|auto]|]. apply IH; auto. intros it Hi. apply Hin. right. exact Hi. }
    apply G; auto.
Qed.

(** Reading the encoding of a value gives the value: from-consensus-buff? inverts
    to-consensus-buff?, whose output is [sip005 v] (C30). *)
Theorem C56_round_trip : forall {HS} (E : env HS), has_std E -> forall tab t l c l' ls stk (st : store HS) a sp v,
  from_consensus_buff tab t l = (c, l') -> at_word tab t l l' ls st (sip005 v) a sp -> has_type t v ->
  word_gives E t c l ls stk st (sip005 v) a sp (CSome v).
Proof.
  intros HS E HE tab t l c l' ls stk st a sp v HC HA HV. eapply C56_reads; [exact HE|exact HC|exact HA|]. destruct HA as (A1 & _ & _ & _ & _ & _ & _ & _ & A9). eapply canonical; eauto.
Qed.
Print Assumptions C56_round_trip.

(** The result is none for every input from which nothing can be read.  Partial: proved for types
    without tuples and utf8 strings, whose code calls library functions that are wrong on
    malformed input (C21, C23). *)
Theorem C56_refuses_partial : forall {HS} (E : env HS), has_std E -> forall tab t l c l' ls stk (st : store HS) bs a sp,
  exact_type t -> from_consensus_buff tab t l = (c, l') -> at_word tab t l l' ls st bs a sp ->
  (exists v, readable t v bs /\ word_gives E t c l ls stk st bs a sp (CSome v)) \/
  ((forall v, ~ readable t v bs) /\ word_gives E t c l ls stk st bs a sp CNone).
Proof.
  intros HS E HE tab t l c l' ls stk st bs a sp HX HC HA. assert (HA' := HA). destruct HA' as (A1 & A2 & A3 & A4 & A5 & A6 & A7 & A8 & A9).
  destruct (word_run E HE tab t l c l' ls stk st bs a sp None HC HA (or_introl HX)) as (f0 & out & H1 & ls' & m' & ws & -> & K1 & K2 & K3).
  destruct K3 as [(v & bs' & R1 & R2 & R3 & _ & K3)|(K3 & _)].
  - left. assert (bs' = bs) as ->. { rewrite <- (holds_eq _ _ _ R2), <- (holds_eq _ _ _ A5). f_equal. unfold zlen in R3. lia. }
    exists v. split; [exact R1|]. exists ls', m', ws. split; [exists f0; exact H1|]. split; [exact K3|]. split; [exact K2|exact K1].
  - right. split; [|exists ls', m', ws; split; [exists f0; exact H1|]; split; [exact K3|]; split; [exact K2|exact K1]].
    intros v HR. destruct (C56_reads E HE tab t l c l' ls stk st bs a sp v HC HA HR) as (ls2 & m2 & ws2 & G1 & G2 & _).
    assert (HE2 := runs_det E _ _ _ _ (ex_intro _ f0 H1) G1). assert (HE3 : rev ws ++ stk = rev ws2 ++ stk) by congruence. apply app_inv_tail in HE3.
    assert (ws = ws2) as -> by (rewrite <- (rev_involutive ws), HE3, rev_involutive; reflexivity). cbn [rep] in K3, G2. destruct K3 as (x & X1 & _), G2 as (y & Y1 & _). congruence.
Qed.
Print Assumptions C56_refuses_partial.

(** Tuples (also inside optionals and responses) with well-formed items in which a key of the
    type is missing or occurs twice are refused. *)
Theorem C56_refuses_miskeyed : forall {HS} (E : env HS), has_std E -> forall tab t l c l' ls stk (st : store HS) bs a sp,
  miskeyed t bs -> from_consensus_buff tab t l = (c, l') -> at_word tab t l l' ls st bs a sp ->
  word_gives E t c l ls stk st bs a sp CNone.
Proof.
  intros HS E HE tab t l c l' ls stk st bs a sp HM HC HA. assert (HA' := HA). destruct HA' as (A1 & A2 & A3 & A4 & A5 & A6 & A7 & A8 & A9).
  destruct (word_run E HE tab t l c l' ls stk st bs a sp None HC HA) as (f0 & out & H1 & ls' & m' & ws & -> & K1 & K2 & K3); [right; exists bs; split; [exact HM|]; split; [exact A5|lia]|].
  destruct K3 as [(v & bs' & R1 & R2 & R3 & _ & K3)|(K3 & _)].
  - exfalso. assert (bs' = bs) as ->. { rewrite <- (holds_eq _ _ _ R2), <- (holds_eq _ _ _ A5). f_equal. unfold zlen in R3. lia. }
    exact (miskeyed_not t A1 v bs HM R1).
  - exists ls', m', ws. split; [exists f0; exact H1|]. split; [exact K3|]. split; [exact K2|exact K1].
Qed.
Print Assumptions C56_refuses_miskeyed.

(** ** A tuple with its items in another order and an unknown one *)
Definition ex56_t : ty := TTuple [("a", TOpt TInt); ("b", TAscii 5)].
Definition ex56_v : value := CTuple [("a", CNone); ("b", CAscii [104; 105])].
Definition ex56_in : list Z := [12; 0; 0; 0; 3; 1; 122; 3; 1; 98; 13; 0; 0; 0; 2; 104; 105; 1; 97; 9].
Definition ex56_tab (ks : list string) : Z := 3000.
Definition ex56_store : store unit :=
  mkstore (write_bytes (write_bytes (mkmem (fun _ => 0) 65536) 3000 (key_table 3000 [[97]; [98]])) 2000 ex56_in) [("stack-pointer", VI32 5000)] tt.
Example C56_ex_readable : readable ex56_t ex56_v ex56_in.
Proof.
  cbn [readable ex56_t ex56_v map fst]. exists [([122], [3]); ([98], [13; 0; 0; 0; 2; 104; 105]); ([97], [9])].
  split; [reflexivity|]. split; [vm_compute; reflexivity|]. split; [reflexivity|]. split.
  - intros k [<-|[<-|[]]]; vm_compute; reflexivity.
  - split.
    + intros it [<-|[<-|[<-|[]]]]; [right|left; cbn; auto|left; cbn; auto]. split; [split; [vm_compute; lia|left; exists 122, []; auto]|]. exists (CBool true). split; [exact I|]. split; reflexivity.
    + split; [exists [9]; split; [right; right; left; reflexivity|reflexivity]|]. split; [|exact I]. exists [13; 0; 0; 0; 2; 104; 105]. split; [right; left; reflexivity|].
      split; [vm_compute; congruence|]. split; [|reflexivity]. apply Forall_cons; [unfold clarity_ascii; lia|]. apply Forall_cons; [unfold clarity_ascii; lia|]. apply Forall_nil.
Qed.
Example C56_ex_hyps : at_word ex56_tab ex56_t ex_l (snd (from_consensus_buff ex56_tab ex56_t ex_l)) (VI32 100 :: repeat (VI32 0) 40) ex56_store ex56_in 2000 5000.
Proof.
  split. { split; [discriminate|]. split; [repeat constructor; cbn; intuition discriminate|]. cbn. unfold max_value_size. intuition lia. }
  split; [exact (proj1 C28_ex_hyps)|]. split; [apply Nat.leb_le; vm_compute; reflexivity|]. split; [reflexivity|].
  split. { split; [lia|]. split; [split; vm_compute; congruence|vm_compute; reflexivity]. }
  split; [vm_compute; congruence|]. split; [vm_compute; reflexivity|]. split; [split; vm_compute; congruence|].
  cbn [tables ex56_t]. split; [|split; [exact I|split; exact I]]. split; [unfold ex56_tab; lia|]. split.
  { split; [vm_compute; congruence|]. split; [split; vm_compute; congruence|vm_compute; reflexivity]. }
  split. { intros x Hx. left. change (zlen (key_table (ex56_tab (map fst [("a", TOpt TInt); ("b", TAscii 5)])) (map chars (map fst [("a", TOpt TInt); ("b", TAscii 5)])))) with 16 in Hx. unfold ex56_tab in Hx. lia. }
  split. { apply Forall_cons; [split; [discriminate|vm_compute; reflexivity]|]. apply Forall_cons; [split; [discriminate|vm_compute; reflexivity]|]. apply Forall_nil. }
  apply SSorted_cons; [apply SSorted_cons; [apply SSorted_nil|apply Forall_nil]|]. apply Forall_cons; [|apply Forall_nil]. apply lex_head. vm_compute. reflexivity.
Qed.
Example C56_ex : let '(c, l') := from_consensus_buff ex56_tab ex56_t ex_l in
  match execs std_env 200 c (mkcfg (VI32 100 :: repeat (VI32 0) 40) [VI32 20; VI32 2000; VI32 9] ex56_store) with
  | ONormal s => cstack s = rev [VI32 9; VI32 1; VI32 0; VI64 0; VI64 0; VI32 2015; VI32 2]
  | _ => False
  end.
Proof. vm_compute. reflexivity. Qed.

(** a repeated key *)
Definition ex56_twice : list Z := [12; 0; 0; 0; 3; 1; 97; 9; 1; 98; 13; 0; 0; 0; 2; 104; 105; 1; 97; 9].
Example C56_ex_miskeyed : miskeyed ex56_t ex56_twice.
Proof.
  exists [([97], [9]); ([98], [13; 0; 0; 0; 2; 104; 105]); ([97], [9])]. split; [reflexivity|]. split; [vm_compute; reflexivity|]. split.
  - assert (HA : reads_item [("a", TOpt TInt); ("b", TAscii 5)] ([97], [9])) by (left; exists "a", (TOpt TInt), CNone; split; [left; reflexivity|]; split; reflexivity).
    intros it [<-|[<-|[<-|[]]]]; [exact HA| |exact HA]. left. exists "b", (TAscii 5), (CAscii [104; 105]). split; [right; left; reflexivity|]. split; [reflexivity|].
    split; [vm_compute; congruence|]. split; [|reflexivity]. apply Forall_cons; [unfold clarity_ascii; lia|]. apply Forall_cons; [unfold clarity_ascii; lia|]. apply Forall_nil.
  - exists "a". split; [left; reflexivity|]. vm_compute. discriminate.
Qed.

(** ** Principals are not validated *)
(** What is accepted as a principal is the encoding of a principal. *)
Definition principals_only {HS} (E : env HS) : Prop := forall tab l c l' ls stk (st : store HS) bs a sp v,
  from_consensus_buff tab TPrin l = (c, l') -> at_word tab TPrin l l' ls st bs a sp ->
  word_gives E TPrin c l ls stk st bs a sp (CSome v) -> exists p, prin_ok p /\ bs = sip005 (CPrin p).

(** False: version bytes above 31 are accepted, and so is a contract without a name. *)
Definition ex56_prin : list Z := 6 :: 255 :: repeat 0 20 ++ [0].
Definition ex56_store2 : store unit := mkstore (write_bytes (mkmem (fun _ => 0) 65536) 2000 ex56_prin) [("stack-pointer", VI32 5000)] tt.
Theorem C56_principals_refuted : ~ principals_only (@std_env unit).
Proof.
  intros H. destruct (from_consensus_buff ex56_tab TPrin ex_l) as [c l'] eqn:HC.
  assert (HA : at_word ex56_tab TPrin ex_l l' (VI32 100 :: repeat (VI32 0) 40) ex56_store2 ex56_prin 2000 5000).
  { split; [exact I|]. split; [exact (proj1 C28_ex_hyps)|]. split; [replace l' with (snd (from_consensus_buff ex56_tab TPrin ex_l)) by (rewrite HC; reflexivity); apply Nat.leb_le; vm_compute; reflexivity|]. split; [reflexivity|].
    split. { split; [lia|]. split; [split; vm_compute; congruence|vm_compute; reflexivity]. }
    split; [vm_compute; congruence|]. split; [vm_compute; reflexivity|]. split; [split; vm_compute; congruence|exact I]. }
  set (v := CPrin (PCon 255 (repeat 0 20) [])).
  assert (HR : readable TPrin v ex56_prin).
  { split; [|reflexivity]. split; [unfold byte; lia|]. split; [reflexivity|]. split; [apply Forall_forall; intros x Hx; apply repeat_spec in Hx; unfold byte; lia|]. split; [vm_compute; reflexivity|apply Forall_nil]. }
  destruct (H ex56_tab ex_l c l' (VI32 100 :: repeat (VI32 0) 40) [] ex56_store2 ex56_prin 2000 5000 v HC HA (C56_reads std_env std_env_ok _ _ _ _ _ _ _ _ _ _ _ v HC HA HR)) as (p & Hp & Hbs).
  destruct p as [v' h|v' h n]; cbn [sip005 sip005_prin] in Hbs; unfold ex56_prin in Hbs; apply cons_split in Hbs as (Ht & Hbs); [discriminate|].
  apply cons_split in Hbs as (<- & _). cbn [prin_ok] in Hp. unfold prin_std_ok in Hp. lia.
Qed.
Print Assumptions C56_principals_refuted.
