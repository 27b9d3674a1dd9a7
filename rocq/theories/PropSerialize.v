(** * C30: to-consensus-buff? emits the canonical SIP-005 bytes *)
From Coq Require Import ZArith String List Bool Lia.
Import ListNotations.
From Verif Require Import Wasm Std StdEnv WasmLogic WasmTac Spec Mem MemFacts Bytes SpecBytes SpecUtf8 Clar Codec Rep RepFacts ReadProofs WriteProofs ArgProofs
  Emit CallProofs EmitFacts EmitProofs Equal EqualProofs LangEarly BeProofs SpecSer Ser SerProofs PropEmit.
Open Scope string_scope.
Open Scope list_scope.
Open Scope Z_scope.

(** The code emitted to serialize a value of type [t], run on the words of a value [v] of that
    type: it leaves the length of [v]'s SIP-005 encoding on the stack, has written that encoding
    at the requested address, and has changed no other byte of memory and no local in use.
    [P] is the set of addresses at which the value's bytes and the interned tuple keys lie; the
    output must not overlap them and must fit in memory. *)
Theorem C30_serialize : forall {HS} (E : env HS), has_std E ->
  forall lit t v ol off l c l' ls k (st : store HS) a ws (P : Z -> Prop),
  serialize_to_memory lit t ol off l = (c, l') -> lwf l -> live l ol -> ty_ok t -> has_type t v ->
  nth_error ls ol = Some (VI32 a) -> (llen l' <= length ls)%nat ->
  rep (smem st) P t v ws -> lits lit (smem st) P t ->
  0 <= a -> 0 <= off -> a + off + zlen (sip005 v) <= msize (smem st) <= 2 ^ 32 -> a + off + zlen (sip005 v) < 2 ^ 32 ->
  (forall x, P x -> ~ (a + off <= x < a + off + zlen (sip005 v))) ->
  exists ls' m', runs E c (mkcfg ls (rev ws ++ k) st)
                        (ONormal (mkcfg ls' (VI32 (zlen (sip005 v)) :: k) (with_mem st m'))) /\
    holds m' (a + off) (sip005 v) /\ only_changes (smem st) m' (a + off) (zlen (sip005 v)) /\ locals_kept l ls ls'.
Proof.
  intros HS E HE lit t v ol off l c l' ls k st a ws P HC Hw Hl Hok Ht Hol Hn Hr Hlit Ha Ho Hb Hs HP.
  destruct (ser_memory_ok lit E HE t Hok _ _ _ _ _ HC Hw Hl) as (_ & X).
  assert (HW : wp E c (mkcfg ls (rev ws ++ k) st) (fun o => exists ls' m',
    o = ONormal (mkcfg ls' (VI32 (zlen (sip005 v)) :: k) (with_mem st m')) /\
    holds m' (a + off) (sip005 v) /\ only_changes (smem st) m' (a + off) (zlen (sip005 v)) /\ locals_kept l ls ls')).
  { rewrite <- (app_nil_r c). eapply X; [exact Hol|exact Hn|exact Ht|exact Hr|exact Hlit|exact Ha|exact Ho|exact Hb|exact Hs| |].
    - intros y Hy. specialize (HP y Hy). lia.
    - intros ls' m' K1 (K2 & K3). apply wp_nil. exists ls', m'. split; [reflexivity|]. split; [exact K3|]. split; [exact K2|exact K1]. }
  destruct HW as (f0 & o & H1 & ls' & m' & -> & H2). exists ls', m'. split; [exists f0; exact H1|exact H2].
Qed.
Print Assumptions C30_serialize.

(** The word to-consensus-buff?, on the words of a value [v] (of type [t]), with the stack pointer
    at [a]: if the encoding is at most 1048576 bytes long, the result is (some b) with [b] the buffer of
    exactly the bytes of the encoding, [a] the buffer's address and the stack pointer behind it;
    otherwise the result is none. The encoding is written at [a] and nothing else changes in memory. *)
Theorem C30_to_consensus_buff : forall {HS} (E : env HS), has_std E ->
  forall lit t v n l c l' ls k (st : store HS) a ws (P : Z -> Prop),
  to_consensus_buff lit t n l = (c, l') -> lwf l -> ty_ok t -> has_type t v ->
  (llen l' <= length ls)%nat ->
  gget (sglob st) "stack-pointer" = Some (VI32 a) ->
  rep (smem st) P t v ws -> lits lit (smem st) P t ->
  0 <= a -> a + zlen (sip005 v) <= msize (smem st) <= 2 ^ 32 -> a + zlen (sip005 v) < 2 ^ 32 ->
  0 <= call_stack_size (TOpt (TBuff n)) false true -> a + call_stack_size (TOpt (TBuff n)) false true < 2 ^ 32 ->
  (forall x, P x -> ~ (a <= x < a + zlen (sip005 v))) ->
  exists ls' st' ws', runs E c (mkcfg ls (rev ws ++ k) st) (ONormal (mkcfg ls' (rev ws' ++ k) st')) /\
    locals_kept l ls ls' /\ shost st' = shost st /\
    only_changes (smem st) (smem st') a (zlen (sip005 v)) /\
    (zlen (sip005 v) <= 1048576 ->
       rep (smem st') (fun x => a <= x < a + zlen (sip005 v)) (TOpt (TBuff n)) (CSome (CBuff (sip005 v))) ws' /\
       gget (sglob st') "stack-pointer" = Some (VI32 (a + zlen (sip005 v)))) /\
    (1048576 < zlen (sip005 v) -> rep (smem st') (fun _ => False) (TOpt (TBuff n)) CNone ws').
Proof.
  intros HS E HE lit t v n l c l' ls k st a ws P HC Hw Hok Ht Hn Hsp Hr Hlit Ha Hb Hs Hz1 Hz2 HP.
  set (L := zlen (sip005 v)) in *. pose proof (zlen_nonneg (sip005 v)) as HL. fold L in HL.
  unfold to_consensus_buff, create_call_stack_local in HC. set (size := call_stack_size (TOpt (TBuff n)) false true) in *.
  rewrite add_one, add_more in HC. cbn [length] in HC.
  destruct (serialize_to_memory lit t (llen l) 0 (more l ([T32] ++ [T32]))) as [cs l2] eqn:E1.
  assert (Hc := f_equal fst HC). assert (Hl' := f_equal snd HC). cbn [fst snd] in Hc, Hl'. subst c l'. clear HC. cbn [app] in E1.
  assert (Hlv : live (more l [T32; T32]) (llen l)) by (rewrite <- (Nat.add_0_r (llen l)); apply live_new; [exact Hw|cbn [length]; lia]).
  destruct (ser_memory_ok lit E HE t Hok _ _ _ _ _ E1 (more_wf _ _ Hw) Hlv) as (X1 & X2).
  pose proof (lext_len _ _ X1) as Hlen. rewrite llen_more in Hlen. cbn [length] in Hlen.
  match goal with |- exists ls' st' ws', runs E ?c ?s _ /\ _ => assert (HW : wp E (c ++ []) s (fun o => exists ls' st' ws',
    o = ONormal (mkcfg ls' (rev ws' ++ k) st') /\ locals_kept l ls ls' /\ shost st' = shost st /\
    only_changes (smem st) (smem st') a L /\
    (L <= 1048576 ->
       rep (smem st') (fun x => a <= x < a + L) (TOpt (TBuff n)) (CSome (CBuff (sip005 v))) ws' /\
       gget (sglob st') "stack-pointer" = Some (VI32 (a + L))) /\
    (1048576 < L -> rep (smem st') (fun _ => False) (TOpt (TBuff n)) CNone ws'))) end.
  2:{ rewrite app_nil_r in HW. destruct HW as (f0 & o & H1 & ls' & st' & ws' & -> & H2). exists ls', st', ws'. split; [exists f0; exact H1|exact H2]. }
  nrm.
  eapply wp_gget; [exact Hsp|]. apply wp_ltee. apply wp_const. rewrite (Z.mod_small size) by (change m32 with (2 ^ 32); lia).
  apply wp_add32; [change m32 with (2 ^ 32); lia|]. apply wp_gset.
  eapply (X2 _ _ _ _ a v ws P); rewrite ?lset_len; cbn [smem with_glob]; [lk|lia|exact Ht|exact Hr|exact Hlit|lia|lia|rewrite Z.add_0_r; exact Hb|rewrite Z.add_0_r; exact Hs| |].
  { rewrite Z.add_0_r. intros y Hy. specialize (HP y Hy). fold L. lia. }
  fold L. rewrite Z.add_0_r. intros ls1 m1 K1 (K2 & K3).
  assert (Ho : nth_error ls1 (llen l) = Some (VI32 a)) by (rewrite (lkeep_get _ _ _ _ K1 Hlv); lk).
  pose proof (lkeep_len _ _ _ K1) as Hl1. rewrite lset_len in Hl1.
  assert (Hkeep : lkeep l ls (lset ls1 (llen l + 1) (VI32 L))).
  { apply lkeep_new2; [lia|]. eapply lkeep_trans0; [apply (lkeep_new l ls (llen l) (VI32 a)); lia|].
    destruct K1 as (Q1 & Q2). split; [exact Q1|]. intros i Hi. apply Q2. apply live_more; exact Hi. }
  assert (Hsp2 : gget (sglob (with_glob st (gset (sglob st) "stack-pointer" (VI32 (a + size))))) "stack-pointer" = Some (VI32 (a + size)))
    by (cbn [sglob with_glob]; eapply gget_set; exact Hsp).
  apply wp_lset. eapply wp_lget; [lk|]. apply wp_const.
  eapply wp_r32. cbn [irel]. apply wp_if_bool; intros Hc.
  - eapply wp_lget; [lk|]. eapply wp_lget; [lk|]. apply wp_add32; [change m32 with (2 ^ 32); lia|]. apply wp_gset.
    apply wp_const. eapply wp_lget; [lk|]. eapply wp_lget; [lk|]. apply wp_nil. unfold qblock. cbn [cont firstn cstack clocals cstore app].
    apply wp_nil. eexists _, _, [VI32 1; VI32 a; VI32 L]. split; [reflexivity|]. split; [exact Hkeep|]. split; [reflexivity|]. split; [exact K2|].
    apply Z.leb_le in Hc. split.
    + intros _. split; [|cbn [sglob with_glob with_mem]; eapply gget_set; eapply gget_set; exact Hsp].
      cbn [rep]. exists [VI32 a; VI32 L]. split; [reflexivity|]. exists a. split; [reflexivity|]. split; [change m32 with (2 ^ 32); lia|]. split; [change m32 with (2 ^ 32); unfold L, zlen in Hs; lia|]. split; [exact K3|].
      intros x Hx. unfold L, zlen in *. lia.
    + intros Hbig. unfold max_value_size in Hc. lia.
  - apply wp_const. apply wp_const. apply wp_const. apply wp_nil. unfold qblock. cbn [cont firstn cstack clocals cstore app].
    apply wp_nil. eexists _, _, [VI32 0; VI32 0; VI32 0]. split; [reflexivity|]. split; [exact Hkeep|]. split; [reflexivity|]. split; [exact K2|].
    apply Z.leb_gt in Hc. unfold max_value_size in Hc. split; [intros; lia|]. intros _. cbn [rep]. exists [VI32 0; VI32 0]. split; [reflexivity|].
    repeat constructor; cbn; lia.
Qed.
Print Assumptions C30_to_consensus_buff.

(** a tuple with an optional and a string, and its key literals *)
Definition ex30_t : ty := TTuple [("a", TOpt TInt); ("b", TAscii 5)].
Definition ex30_v : value := CTuple [("a", CSome (CInt (-2))); ("b", CAscii [104; 105])].
Definition ex30_ws : list val := [VI32 1; VI64 (2 ^ 64 - 2); VI64 (2 ^ 64 - 1); VI32 4000; VI32 2].
Definition ex30_lit (k : string) : Z := if String.eqb k "a" then 3000 else 3001.
Definition ex30_store : store unit :=
  mkstore (write_bytes (write_bytes (mkmem (fun _ => 0) 65536) 3000 [97; 98]) 4000 [104; 105]) [("stack-pointer", VI32 5000)] tt.
Definition ex30_P (x : Z) : Prop := x < 5000.
Example C30_ex_hyps : ty_ok ex30_t /\ has_type ex30_t ex30_v /\ rep (smem ex30_store) ex30_P ex30_t ex30_v ex30_ws /\
  lits ex30_lit (smem ex30_store) ex30_P ex30_t /\ lwf ex_l /\ (forall x, ex30_P x -> ~ (5000 <= x < 5000 + zlen (sip005 ex30_v))).
Proof.
  split; [|split; [|split; [|split; [|split]]]].
  - split; [discriminate|]. split; [repeat constructor; cbn; intuition discriminate|]. cbn. unfold max_value_size. intuition lia.
  - split; [reflexivity|]. split; [split; vm_compute; congruence|]. split; [reflexivity|]. split; [|exact I].
    split; [vm_compute; congruence|repeat constructor; cbn; lia].
  - exists [VI32 1; VI64 (2 ^ 64 - 2); VI64 (2 ^ 64 - 1)], [VI32 4000; VI32 2]. split; [reflexivity|]. split; [reflexivity|]. split.
    + exists [VI64 (2 ^ 64 - 2); VI64 (2 ^ 64 - 1)]. split; reflexivity.
    + exists [VI32 4000; VI32 2], []. split; [reflexivity|]. split; [reflexivity|]. split; [|reflexivity].
      exists 4000. split; [reflexivity|]. split; [lia|]. split; [cbn; lia|]. split; [split; [lia|]; split; [cbn; lia|vm_compute; reflexivity]|].
      intros x Hx. unfold ex30_P. cbn [length] in Hx. lia.
  - cbn [lits ex30_t]. split; [|split; [exact I|split; [|split; exact I]]];
      (split; [vm_compute; congruence|]; split; [vm_compute; reflexivity|]; split; [split; [vm_compute; congruence|]; split; [split; vm_compute; congruence|vm_compute; reflexivity]|]);
      intros x Hx; unfold ex30_P, ex30_lit, zlen in *; cbn in Hx; lia.
  - exact (proj1 C28_ex_hyps).
  - intros x Hx. unfold ex30_P in Hx. lia.
Qed.
Example C30_ex : let '(c, l') := to_consensus_buff ex30_lit ex30_t 40 ex_l in
  match execs std_env 100 c (mkcfg ([VI32 100] ++ repeat (VI32 0) 30) (rev ex30_ws ++ [VI32 9]) ex30_store) with
  | ONormal s => cstack s = [VI32 34; VI32 5000; VI32 1; VI32 9] /\
      bytes_at (smem (cstore s)) 5000 34 = [12; 0; 0; 0; 2; 1; 97; 10; 0] ++ repeat 255 15 ++ [254; 1; 98; 13; 0; 0; 0; 2; 104; 105] /\
      gget (sglob (cstore s)) "stack-pointer" = Some (VI32 5034)
  | _ => False
  end.
Proof. vm_compute. auto. Qed.
