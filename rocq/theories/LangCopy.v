(** * [copy_value]: the value returned by a call is moved into the caller's frame (proof support) *)
From Coq Require Import ZArith String List Bool Lia.
Import ListNotations.
From Verif Require Import Wasm Std StdEnv WasmLogic WasmTac Mem MemFacts Bytes Spec SpecBytes SpecUtf8 ArithProofs Clar Rep RepFacts WriteProofs Emit EmitFacts EmitProofs
  Equal EqualProofs CallProofs ArgProofs Ast SpecLang Lang Typing LangFacts LangBase LangCtl LangEarly LangMem LangSeq.
Open Scope string_scope.
Open Scope list_scope.
Open Scope Z_scope.

(** values of types without in-memory parts *)
Lemma no_mem_rep m m' P P' t : has_in_memory t = false -> forall v ws, rep m P t v ws -> rep m' P' t v ws.
Proof.
  induction t using ty_ind'; cbn [has_in_memory]; intros Hm; try discriminate; intros v ws Hr; destruct v; cbn [rep] in *; try contradiction; auto.
  - destruct Hr as (ws' & -> & Hr). exists ws'. auto.
  - apply orb_false_iff in Hm as (H1 & H2). destruct Hr as (w1 & w2 & -> & Hr & Ht). exists w1, w2. auto.
  - apply orb_false_iff in Hm as (H1 & H2). destruct Hr as (w1 & w2 & -> & Ht & Hr). exists w1, w2. auto.
  - revert fs0 ws Hr. induction H as [|[k t] fs Ht H IH]; intros [|[k' v] vs] ws Hr; try contradiction; auto.
    cbn [existsb snd] in Hm. apply orb_false_iff in Hm as (H1 & H2). destruct Hr as (w1 & w2 & -> & -> & Hr & Hr2).
    exists w1, w2. split; auto. split; auto. split; [exact (Ht H1 _ _ Hr)|exact (IH H2 _ _ Hr2)].
Qed.
Lemma no_mem_payload t : has_in_memory t = false -> forall v, payload t v = 0.
Proof.
  induction t using ty_ind'; cbn [has_in_memory]; intros Hm; try discriminate; intros v; destruct v; cbn [payload]; auto.
  - apply orb_false_iff in Hm as (H1 & H2). auto.
  - apply orb_false_iff in Hm as (H1 & H2). auto.
  - change (payloads fs fs0 = 0). revert fs0. induction H as [|[k t] fs Ht H IH]; intros [|[k' v] vs]; cbn [payloads]; auto.
    cbn [existsb snd] in Hm. apply orb_false_iff in Hm as (H1 & H2). rewrite (Ht H1), (IH H2). reflexivity.
Qed.

Lemma widens_payload t : forall t' v, widens t t' = true -> payload t' v = payload t v.
Proof.
  induction t using ty_ind'; intros [] v H0; cbn in H0; try discriminate; destruct v; cbn [payload]; auto.
  - apply andb_prop in H0 as (H1 & H2). rewrite (widens_size _ _ H2). f_equal. induction vs as [|v vs IHv]; [reflexivity|]. cbn [fold_right]. rewrite (IHt _ _ H2), IHv. reflexivity.
  - apply andb_prop in H0 as (H1 & H2). auto.
  - apply andb_prop in H0 as (H1 & H2). auto.
  - change (widens_fields fs fs0 = true) in H0. change (payloads fs0 fs1 = payloads fs fs1). revert fs0 fs1 H0.
    induction H as [|[k t] fs Ht H IH]; intros [|[k' t'] fs'] vs H0; cbn in H0; try discriminate; auto.
    apply andb_prop in H0 as (H1 & H2). apply andb_prop in H1 as (H1 & H3). destruct vs as [|[k'' v] vs]; [reflexivity|]. cbn [payloads].
    rewrite (Ht _ _ H3), (IH _ _ H2). reflexivity.
Qed.

(** the space a caller reserves is enough *)
Lemma count_space t : ty_ok t -> 0 <= count_in_memory_space t /\ forall v, has_type t v -> payload t v <= count_in_memory_space t.
Proof.
  induction t using ty_ind'; cbn [count_in_memory_space ty_ok]; intros Hok.
  1-4: split; [lia|]; intros v Hv; destruct v; cbn [has_type] in Hv; try contradiction; cbn [payload]; lia.
  - split; [lia|]. intros v Ht. destruct v; cbn [has_type] in Ht; try contradiction; cbn [payload]. pose proof (prin_bytes_len p Ht). lia.
  - split; [lia|]. intros v Ht. destruct v; cbn [has_type] in Ht; try contradiction; cbn [payload]. destruct Ht as (_ & Ht & _). pose proof (prin_bytes_len p Ht). lia.
  - split; [lia|]. intros v Ht. destruct v; cbn [has_type] in Ht; try contradiction; cbn [payload]. lia.
  - split; [lia|]. intros v Ht. destruct v; cbn [has_type] in Ht; try contradiction; cbn [payload]. lia.
  - split; [lia|]. intros v Ht. destruct v; cbn [has_type] in Ht; try contradiction; cbn [payload]. rewrite utf8_len. lia.
  - destruct Hok as (Hn & Hok). pose proof (inmem_nonneg t true Hok) as Hi. split; [nia|]. intros v Ht. destruct v; cbn [has_type] in Ht; try contradiction; cbn [payload].
    destruct Ht as (Hl & Ht). fold (pay_list t vs).
    assert (HS : Z.of_nat (length vs) * get_type_size t + pay_list t vs <= Z.of_nat (length vs) * get_type_in_memory_size t true).
    { clear Hl. induction Ht as [|v vs Hv Ht IH]; [cbn; lia|]. cbn [length pay_list fold_right]. fold (pay_list t vs).
      rewrite Nat2Z.inj_succ. pose proof (payload_bound t Hok v Hv). lia. }
    clear - HS Hi Hl. nia.
  - destruct (IHt Hok) as (H1 & H2). split; [exact H1|]. intros v Ht. destruct v; cbn [has_type] in Ht; try contradiction; cbn [payload]; auto.
  - destruct Hok as (Ho1 & Ho2). destruct (IHt1 Ho1) as (H1 & H2). destruct (IHt2 Ho2) as (H3 & H4). split; [lia|].
    intros v Ht. destruct v; cbn [has_type] in Ht; try contradiction; cbn [payload]; [specialize (H2 _ Ht)|specialize (H4 _ Ht)]; lia.
  - destruct Hok as (_ & _ & Hok). change (fields_ok fs) in Hok.
    assert (HG : 0 <= fold_right (fun f n => count_in_memory_space (snd f) + n) 0 fs /\ forall vs, fields_typed fs vs -> payloads fs vs <= fold_right (fun f n => count_in_memory_space (snd f) + n) 0 fs).
    { induction H as [|[k t] fs Hf H IH]; cbn [fold_right snd fields_ok] in *.
      - split; [lia|]. intros vs _. cbn. lia.
      - destruct Hok as (Ha & Hb). destruct (Hf Ha) as (H1 & H2). destruct (IH Hb) as (H3 & H4). split; [lia|].
        intros [|[k' v] vs] Hv; cbn [fields_typed payloads] in *; [lia|]. destruct Hv as (_ & Hv & Hvs). specialize (H2 _ Hv). specialize (H4 _ Hvs). lia. }
    destruct HG as (H1 & H2). split; [exact H1|]. intros v Ht. destruct v; cbn [has_type] in Ht; try contradiction. exact (H2 _ Ht).
Qed.

Lemma no_size t : get_type_size t = 0 -> has_in_memory t = false.
Proof.
  induction t using ty_ind'; cbn [get_type_size has_in_memory]; intros Hs; try discriminate; try (pose proof (size_nonneg t); lia).
  - pose proof (size_nonneg t1). pose proof (size_nonneg t2). lia.
  - induction H as [|[k t] fs Ht H IH]; [reflexivity|]. cbn [fold_right snd existsb] in *. pose proof (size_nonneg t).
    assert (0 <= fold_right (fun (f : string * ty) (n : Z) => get_type_size (snd f) + n) 0 fs).
    { clear. induction fs as [|[k t] fs IH]; cbn [fold_right snd]; [lia|]. pose proof (size_nonneg t). lia. }
    rewrite Ht, IH by lia. reflexivity.
Qed.
Lemma no_mem_elems m P P' t vs : has_in_memory t = false -> forall a, rep_elems m P t vs a -> rep_elems m P' t vs a.
Proof.
  intros Hm. induction vs as [|v vs IH]; intros a He; [exact I|]. cbn [rep_elems] in *. destruct He as ((ws & Hw & Hr) & He).
  split; [|apply IH; exact He]. exists ws. split; [exact Hw|]. eapply no_mem_rep; eauto.
Qed.
Lemma no_mem_pays t vs : has_in_memory t = false -> pay_list t vs = 0.
Proof. intros Hm. induction vs as [|v vs IH]; [reflexivity|]. cbn [pay_list fold_right]. fold (pay_list t vs). rewrite no_mem_payload by auto. lia. Qed.

Lemma elems_weaken m (P Q : Z -> Prop) t vs : forall a, (forall x, P x -> Q x) -> rep_elems m P t vs a -> rep_elems m Q t vs a.
Proof.
  induction vs as [|v vs IH]; intros a HG He; [exact I|].
  cbn [rep_elems] in *. destruct He as ((ws & Hw & Hr) & He). split; [exists ws; split; [exact Hw|eapply rep_weaken; eauto]|apply IH; auto].
Qed.

Section Copy.
Context {HS : Type} {CH : chain HS} (E : env HS).
Notation wp := (wp E).

Definition copies (t : ty) (c : list instr) (l l' : lst) (is : list nat) (co : nat) : Prop :=
  lext l l' /\
  forall js ls k (st : store HS) a v ws (P : Z -> Prop) Q, nth_error ls co = Some (VI32 a) -> lvals ls is ws -> rep (smem st) P t v ws ->
    (llen l' <= length ls)%nat -> 0 <= a -> a + payload t v <= msize (smem st) < m32 -> (forall x, P x -> ~ (a <= x < a + payload t v)) ->
    (forall ls' m' ws', lkeep (hide (co :: is) l) ls ls' -> nth_error ls' co = Some (VI32 (a + payload t v)) -> lvals ls' is ws' ->
       only_changes (smem st) m' a (payload t v) -> rep m' (seg a (payload t v)) t v ws' -> wp js (mkcfg ls' k (with_mem st m')) Q) ->
    wp (c ++ js) (mkcfg ls k st) Q.

Lemma with_mem_id (st : store HS) : with_mem st (smem st) = st.
Proof. destruct st; reflexivity. Qed.
Lemma only_refl m a n : only_changes m m a n.
Proof. split; auto. Qed.

(** nothing to copy *)
Lemma copies_none t l is co : lwf l -> has_in_memory t = false -> copies t [] l l is co.
Proof.
  intros Hw Hm. split; [apply lext_refl; auto|]. intros js ls k st a v ws P Q Hco Hv Hr HL Ha Hb Hd HW. cbn [app].
  rewrite <- (with_mem_id st). rewrite (no_mem_payload _ Hm) in *. eapply (HW ls (smem st) ws).
  - apply lkeep_refl.
  - rewrite Z.add_0_r. exact Hco.
  - exact Hv.
  - apply only_refl.
  - eapply no_mem_rep; eauto.
Qed.

(** address and length: the bytes are copied *)
Lemma copy_bytes_run o n co l js ls k (st : store HS) a src len Q :
  live l o -> live l n -> live l co -> o <> n -> co <> o -> co <> n -> nth_error ls co = Some (VI32 a) -> nth_error ls o = Some (VI32 src) -> nth_error ls n = Some (VI32 len) ->
  (llen l <= length ls)%nat -> 0 <= a -> 0 <= src -> 0 <= len -> a + len <= msize (smem st) < m32 -> src + len <= msize (smem st) ->
  (forall ls', lkeep (hide [co; o] l) ls ls' -> nth_error ls' co = Some (VI32 (a + len)) -> nth_error ls' o = Some (VI32 a) -> nth_error ls' n = Some (VI32 len) ->
     wp js (mkcfg ls' k (with_mem st (mcopy (smem st) a src len))) Q) ->
  wp (copy_bytes o n co ++ js) (mkcfg ls k st) Q.
Proof.
  intros Lo Ln Lc Hon Hco Hcn Hc Ho Hn HL Ha Hs Hl0 Hb Hsb HW. unfold copy_bytes. cbn [app].
  eapply wp_lget; [exact Hc|]. eapply wp_lget; [exact Ho|]. eapply wp_lget; [exact Hn|].
  apply wp_memcopy; [lia|lia|]. eapply wp_lget; [exact Hc|]. apply wp_lset.
  assert (Ho' : (o < length ls)%nat) by (destruct Lo; lia). assert (Hc' : (co < length ls)%nat) by (destruct Lc; lia).
  eapply wp_lget; [rewrite lset_other by congruence; exact Hc|]. eapply wp_lget; [rewrite lset_other by congruence; exact Hn|].
  eapply wp_b32; [cbn [ibin]; rewrite Z.mod_small by lia; reflexivity|]. apply wp_lset.
  apply HW.
  - eapply lkeep_trans0; [apply lkeep_hide_lset; right; right; left; reflexivity|apply lkeep_hide_lset; right; left; reflexivity].
  - apply lset_same. rewrite lset_len. exact Hc'.
  - rewrite lset_other by congruence. apply lset_same. exact Ho'.
  - rewrite !lset_other by congruence. exact Hn.
Qed.

Lemma copies_bytes t bsf is co l : lwf l -> Forall (live l) is -> live l co -> NoDup is -> ~ In co is -> clar2wasm_ty t = [T32; T32] -> length is = 2%nat ->
  (forall m P v ws, rep m P t v ws -> rep_bytes m P (bsf v) ws /\ payload t v = Z.of_nat (length (bsf v)) /\ forall m' P' ws', rep_bytes m' P' (bsf v) ws' -> rep m' P' t v ws') ->
  copies t (copy_bytes (lnth 0 is) (lnth 1 is) co) l l is co.
Proof.
  intros Hw Hl Lc Hnd Hnc Ht HL2 Hrep. split; [apply lext_refl; auto|]. intros js ls k st a v ws P Q Hco Hv Hr HL Ha Hb Hd HW.
  destruct is as [|o [|n [|]]]; try discriminate. cbn [lnth nth] in *. unfold lnth; cbn [nth].
  destruct (Hrep _ _ _ _ Hr) as ((src & -> & B1 & B2 & B3 & B4) & Hp & Hback). rewrite Hp in *. set (bs := bsf v) in *. set (len := Z.of_nat (length bs)) in *.
  inversion Hv as [|? ? ? ? Ho Hv2]; subst. inversion Hv2 as [|? ? ? ? Hn _]; subst. inversion Hl as [|? ? Lo Hl2]; subst. inversion Hl2 as [|? ? Ln _]; subst.
  inversion Hnd as [|? ? Hon _]; subst. cbn [In] in Hon, Hnc. pose proof (holds_len _ _ _ B3) as HL3. fold len in HL3.
  eapply (copy_bytes_run o n co l); [exact Lo|exact Ln|exact Lc|intuition|intuition|intuition|exact Hco|exact Ho|exact Hn|exact HL|lia|lia|lia|lia|lia|].
  intros ls' HK Hc1 Ho1 Hn1. apply (HW ls' _ [VI32 a; VI32 len]).
  - eapply hide_keep_some; [apply lext_refl; auto| |exact HK]. intros i [<-|[<-|[]]]; cbn; auto.
  - exact Hc1.
  - constructor; [exact Ho1|]. constructor; [exact Hn1|constructor].
  - apply only_mcopy.
  - apply Hback. exists a. split; [reflexivity|]. split; [lia|]. split; [lia|]. split; [|intros x Hx; exact Hx].
    eapply (holds_shift (smem st)); [reflexivity|lia|fold len; lia| |exact B3]. intros i Hi. rewrite rd_mcopy. fold len in Hi.
    destruct (Z.leb_spec a (a + i)), (Z.ltb_spec (a + i) (a + len)); try lia. cbn [andb]. f_equal. lia.
Qed.

Lemma pay_list_app t xs ys : pay_list t (xs ++ ys) = pay_list t xs + pay_list t ys.
Proof. induction xs as [|x xs IH]; [reflexivity|]. cbn [app pay_list fold_right]. fold (pay_list t (xs ++ ys)) (pay_list t xs). lia. Qed.

(** a list: the words are copied, then the parts of each element *)
Definition copy_ok (t : ty) : Prop := forall is co l c l', copy_value t is co l = (c, l') -> lwf l -> Forall (live l) is -> live l co -> NoDup is -> ~ In co is ->
  length is = length (clar2wasm_ty t) -> copies t c l l' is co.

Lemma copies_list nl te : copy_ok te -> copy_ok (TList nl te).
Proof.
  intros IH is co l c l' HC Hw Hl Lc Hnd Hnc HL2. cbn [copy_value] in HC. cbn [clar2wasm_ty length] in HL2.
  destruct is as [|o [|n [|]]]; try discriminate. unfold lnth in HC; cbn [nth] in HC.
  destruct (save_to_locals te l) as [[es cs] l1] eqn:Es. destruct (copy_value te es co l1) as [cc l2] eqn:Ec. destruct (write_to_memory te o 0 l2) as [cw l3] eqn:Ew.
  pose proof (f_equal fst HC) as HC1; pose proof (f_equal snd HC) as HC2; cbn [fst snd] in HC1, HC2; clear HC; subst c l'.
  inversion Hl as [|? ? Lo Hl2]; subst. inversion Hl2 as [|? ? Ln _]; subst. inversion Hnd as [|? ? Hon _]; subst. cbn [In] in Hon, Hnc.
  destruct (save_ok E _ _ _ _ _ Es Hw) as (X1 & L1 & Hln & Hsv). destruct (save_fresh _ _ _ _ _ Es Hw) as (Nd1 & N1).
  assert (Nce : ~ In co es) by (intros Hi; rewrite Forall_forall in N1; exact (N1 _ Hi Lc)).
  assert (Noe : ~ In o es) by (intros Hi; rewrite Forall_forall in N1; exact (N1 _ Hi Lo)).
  assert (Nne : ~ In n es) by (intros Hi; rewrite Forall_forall in N1; exact (N1 _ Hi Ln)).
  destruct (IH _ _ _ _ _ Ec (lext_wf _ _ X1) L1 (lext_live _ _ _ X1 Lc) Nd1 Nce Hln) as (X2 & Hcp).
  assert (X12 : lext l l2) by (eapply lext_trans; eauto).
  destruct (write_memory_ok E _ _ _ _ _ _ Ew (lext_wf _ _ X2) (lext_live _ _ _ X12 Lo)) as (X3 & Hst).
  assert (X13 : lext l l3) by (eapply lext_trans; eauto). split; [exact X13|].
  intros js ls k st a v ws P Q Hco Hv Hr HL Ha Hb Hd HW.
  assert (HLs : (llen l <= length ls)%nat) by (apply lext_len in X13; lia).
  destruct v; cbn [rep] in Hr; try contradiction. destruct Hr as (src & -> & B1 & B2 & B3 & B4 & B5).
  change (rep_elems (smem st) P te vs src) in B5. rewrite words_size_ty in *. set (S := get_type_size te) in *. set (len := Z.of_nat (length vs) * S) in *.
  inversion Hv as [|? ? ? ? Ho Hv2]; subst. inversion Hv2 as [|? ? ? ? Hn _]; subst.
  cbn [payload] in Hb, Hd, HW. fold S (pay_list te vs) in Hb, Hd, HW. fold len in Hb, Hd, HW.
  pose proof (pay_list_nonneg te vs) as Hpl. pose proof (size_nonneg te) as HS0. fold S in HS0. assert (Hlen0 : 0 <= len) by (unfold len; nia).
  rewrite <- app_assoc. 
  eapply (copy_bytes_run o n co l); [exact Lo|exact Ln|exact Lc|intuition|intuition|intuition|exact Hco|exact Ho|exact Hn|exact HLs|lia|lia|lia|lia|lia|].
  intros ls1 HK1 Hc1 Ho1 Hn1. set (m1 := mcopy (smem st) a src len). cbn [app].
  assert (HO1 : only_changes (smem st) m1 a len) by apply only_mcopy.
  assert (HE1 : rep_elems m1 P te vs a).
  { rewrite <- (Z.add_0_r a). apply (elems_shift (smem st) m1 P _ te src a); [reflexivity| | |lia|lia| | |rewrite Z.add_0_r; exact B5].
    - intros x Hx. apply HO1. specialize (Hd x Hx). lia.
    - intros x Hx. exact Hx.
    - fold S len. lia.
    - fold S len. intros i Hi. unfold m1. rewrite rd_mcopy. destruct (Z.leb_spec a (a + i)), (Z.ltb_spec (a + i) (a + len)); try lia. cbn [andb]. f_equal. lia. }
  assert (HKl1 : lkeep (hide [co; o; n] l) ls ls1).
  { eapply hide_keep_some; [apply lext_refl; auto| |exact HK1]. intros i [<-|[<-|[]]]; cbn; auto. }
  set (tot := len + pay_list te vs) in *.
  (* what is left after the loop *)
  assert (HEND : forall ls2 m2, lkeep (hide [co; o; n] l) ls ls2 -> nth_error ls2 co = Some (VI32 (a + tot)) -> only_changes (smem st) m2 a tot ->
     rep_elems m2 (seg a tot) te vs a -> nth_error ls2 o = Some (VI32 a) -> nth_error ls2 n = Some (VI32 len) -> wp js (mkcfg ls2 k (with_mem st m2)) Q).
  { intros ls2 m2 K2 C2 O2 R2 Ho2 Hn2. apply (HW ls2 m2 [VI32 a; VI32 len] K2 C2); [|exact O2|].
    - constructor; [exact Ho2|]. constructor; [exact Hn2|constructor].
    - cbn [rep]. exists a. destruct O2 as (O2 & _). split; [rewrite words_size_ty; reflexivity|]. split; [lia|]. split; [rewrite words_size_ty; fold S len; lia|].
      split; [rewrite words_size_ty; fold S len; lia|]. split; [rewrite words_size_ty; fold S len; intros x Hx; unfold seg; lia|exact R2]. }
  eapply wp_lget; [exact Hn1|]. apply wp_if0. destruct (Z.eqb_spec len 0) as [Hz|Hz].
  { (* empty *) apply wp_nil. unfold cont, qblock. cbn [exit_block cstack setstk app].
    assert (Hvs : pay_list te vs = 0 /\ rep_elems m1 (seg a tot) te vs a).
    { destruct vs as [|v vs]; [split; [reflexivity|exact I]|]. assert (HSz : S = 0) by (unfold len in Hz; cbn [length] in Hz; lia).
      pose proof (no_size te HSz) as Hnm. split; [apply no_mem_pays; exact Hnm|]. eapply no_mem_elems; [exact Hnm|exact HE1]. }
    destruct Hvs as (Hp0 & Hr0).
    apply HEND; [exact HKl1| | |exact Hr0|exact Ho1|exact Hn1].
    - unfold tot. rewrite Hp0, Z.add_0_r. exact Hc1.
    - eapply only_weaken; [exact HO1|lia|unfold tot; lia]. }
  assert (HSp : 0 < S) by (unfold len in Hz; clear - Hz HS0; nia).
  eapply wp_lget; [exact Ho1|]. eapply wp_lget; [exact Hn1|].
  eapply wp_loop0 with (z := Z.of_nat (length vs)) (I := fun z s => exists vs1 vs2 ls2 m2,
     vs = vs1 ++ vs2 /\ Z.of_nat (length vs2) = z /\ vs2 <> [] /\ s = mkcfg ls2 [] (with_mem st m2) /\ lkeep (hide [co; o; n] l) ls ls2 /\
     nth_error ls2 co = Some (VI32 (a + len + pay_list te vs1)) /\ nth_error ls2 o = Some (VI32 (a + Z.of_nat (length vs1) * S)) /\
     nth_error ls2 n = Some (VI32 (Z.of_nat (length vs2) * S)) /\ only_changes (smem st) m2 a tot /\
     rep_elems m2 (seg (a + len) (pay_list te vs1)) te vs1 a /\
     rep_elems m2 P te vs2 (a + Z.of_nat (length vs1) * S)).
  { lia. }
  { exists [], vs, ls1, m1. cbn [app length pay_list fold_right]. rewrite Z.mul_0_l, !Z.add_0_r. fold len.
    split; [reflexivity|]. split; [reflexivity|]. split; [intros ->; unfold len in Hz; cbn in Hz; lia|]. split; [reflexivity|]. split; [exact HKl1|].
    split; [exact Hc1|]. split; [exact Ho1|]. split; [exact Hn1|]. split; [eapply only_weaken; [exact HO1|lia|unfold tot; lia]|]. split; [exact I|exact HE1]. }
  intros z ls0 st0 Hz0 (vs1 & vs2 & ls2 & m2 & Hvs & Hzl & Hne & Hcfg & K2 & C2 & O2 & N2 & OC2 & R1 & R2).
  apply cfg_inj in Hcfg as (-> & ->). destruct vs2 as [|v vs2]; [congruence|]. clear Hne.
  cbn [rep_elems] in R2. destruct R2 as ((we & Hwe & Hre) & R2). rewrite words_size_ty in R2. fold S in R2.
  cbn [length] in N2, Hzl. rewrite Nat2Z.inj_succ, Z.mul_succ_l in N2. rewrite Nat2Z.inj_succ in Hzl.
  set (o' := a + Z.of_nat (length vs1) * S) in *. set (rest := Z.of_nat (length vs2) * S) in *.
  assert (Hrest0 : 0 <= rest) by (unfold rest; clear - HSp; nia).
  assert (Hlen2 : o' + S + rest = a + len). { unfold o', rest, len. rewrite Hvs, app_length. cbn [length]. rewrite Nat2Z.inj_add, Nat2Z.inj_succ. lia. }
  assert (Hpays : pay_list te vs = pay_list te vs1 + payload te v + pay_list te vs2). { rewrite Hvs, pay_list_app. cbn [pay_list fold_right]. fold (pay_list te vs2). lia. }
  pose proof (payload_nonneg te v) as Hpv. pose proof (pay_list_nonneg te vs1) as Hp1. pose proof (pay_list_nonneg te vs2) as Hp2.
  assert (Ho'0 : a <= o') by (unfold o'; clear - HSp; nia).
  pose proof (proj1 OC2) as Hms2. set (ca := a + len + pay_list te vs1) in *.
  assert (HLs2 : length ls2 = length ls) by (eapply lkeep_len; eauto).
  eapply (read_memory_ok E te); [exact O2|eapply rep_typed; exact Hre|rewrite Z.add_0_r; exact Hwe|].
  pose proof (blank_rep _ _ _ _ _ Hre) as Hrb. eapply Hsv; [rewrite <- (rep_len _ _ _ _ _ Hrb); reflexivity|apply lext_len in X2, X3; lia|].
  intros ls3 K3 V3.
  assert (C3 : nth_error ls3 co = Some (VI32 ca)) by (rewrite (lkeep_get _ _ _ _ K3 Lc); exact C2).
  assert (O3 : nth_error ls3 o = Some (VI32 o')) by (rewrite (lkeep_get _ _ _ _ K3 Lo); exact O2).
  assert (N3 : nth_error ls3 n = Some (VI32 (rest + S))) by (rewrite (lkeep_get _ _ _ _ K3 Ln); exact N2).
  pose proof (lkeep_len _ _ _ K3) as HLs3. unfold tot in *.
  eapply (Hcp _ _ _ (with_mem st m2) ca v _ _ _ C3 V3 Hrb); [apply lext_len in X3; lia|lia|cbn [smem with_mem]; lia| |].
  { intros x Hx. specialize (Hd x Hx). lia. }
  intros ls4 m4 ws4 K4 C4 V4 OC4 R4. cbn [smem with_mem] in OC4. rewrite with_mem_twice.
  pose proof (lkeep_len _ _ _ K4) as HLs4.
  assert (Hlv : forall i, live l i -> i <> co -> live (hide (co :: es) l1) i).
  { intros i Hi Hne. apply live_hide. split; [eapply lext_live; eauto|]. intros [Hx|Hx]; [congruence|]. rewrite Forall_forall in N1. exact (N1 _ Hx Hi). }
  assert (O4 : nth_error ls4 o = Some (VI32 o')) by (rewrite (lkeep_get _ _ _ _ K4 (Hlv _ Lo ltac:(intuition))); exact O3).
  assert (N4 : nth_error ls4 n = Some (VI32 (rest + S))) by (rewrite (lkeep_get _ _ _ _ K4 (Hlv _ Ln ltac:(intuition))); exact N3).
  eapply wp_lgets; [exact V4|]. pose proof (proj1 OC4) as Hms4.
  eapply Hst; [exact O4|lia|eapply rep_typed; exact R4|lia|lia|cbn [smem with_mem]; fold S; lia|].
  intros ls5 m5 K5 OC5 W5. cbn [smem with_mem] in OC5. rewrite with_mem_twice. rewrite Z.add_0_r in OC5, W5. fold S in OC5. pose proof (proj1 OC5) as Hms5.
  assert (C5 : nth_error ls5 co = Some (VI32 (ca + payload te v))) by (rewrite (lkeep_get _ _ _ _ K5 (lext_live _ _ _ X12 Lc)); exact C4).
  assert (O5 : nth_error ls5 o = Some (VI32 o')) by (rewrite (lkeep_get _ _ _ _ K5 (lext_live _ _ _ X12 Lo)); exact O4).
  assert (N5 : nth_error ls5 n = Some (VI32 (rest + S))) by (rewrite (lkeep_get _ _ _ _ K5 (lext_live _ _ _ X12 Ln)); exact N4).
  assert (K25 : lkeep (hide [co; o; n] l) ls ls5).
  { eapply lkeep_trans0; [exact K2|]. eapply lkeep_trans0; [eapply lkeep_hide; [apply lext_refl; exact Hw|exact K3]|].
    eapply lkeep_trans0; [|eapply lkeep_hide; [exact X12|exact K5]]. eapply lkeep_hide2; [exact X1| |exact K4].
    intros i [<-|Hi] Hli; [left; reflexivity|]. rewrite Forall_forall in N1. exfalso. exact (N1 _ Hi Hli). }
  pose proof (lkeep_len _ _ _ K5) as HLs5.
  assert (Hob : (o < length ls5)%nat) by (destruct Lo; lia). assert (Hnb : (n < length ls5)%nat) by (destruct Ln; lia).
  cbn [app]. eapply wp_lget; [exact O5|]. apply wp_const. fold S. eapply wp_b32; [cbn [ibin]; rewrite Z.mod_small by lia; reflexivity|]. apply wp_lset.
  eapply wp_lget; [rewrite lset_other by intuition; exact N5|]. apply wp_const.
  eapply wp_b32; [cbn [ibin]; replace (rest + S - S) with rest by lia; rewrite Z.mod_small by lia; reflexivity|]. apply wp_ltee.
  set (ls6 := lset (lset ls5 o (VI32 (o' + S))) n (VI32 rest)).
  assert (K6 : lkeep (hide [co; o; n] l) ls ls6).
  { eapply lkeep_trans0; [exact K25|]. eapply lkeep_trans0; apply lkeep_hide_lset; right; cbn; auto. }
  assert (C6 : nth_error ls6 co = Some (VI32 (ca + payload te v))) by (unfold ls6; rewrite !lset_other by intuition; exact C5).
  assert (O6 : nth_error ls6 o = Some (VI32 (o' + S))) by (unfold ls6; rewrite lset_other by intuition; apply lset_same; exact Hob).
  assert (N6 : nth_error ls6 n = Some (VI32 rest)) by (unfold ls6; apply lset_same; rewrite lset_len; exact Hnb).
  assert (OC6 : only_changes (smem st) m5 a (len + pay_list te vs)).
  { eapply only_trans; [exact OC2|]. eapply only_trans; [eapply only_weaken; [exact OC4|lia|lia]|eapply only_weaken; [exact OC5|lia|lia]]. }
  assert (HR5 : forall x, o' + S <= x < a + len \/ P x -> rd m5 x = rd m2 x).
  { intros x Hx. destruct OC5 as (_ & OC5). destruct OC4 as (_ & OC4). rewrite OC5, OC4; [reflexivity| |].
    - destruct Hx as [Hx|Hx]; [lia|]. specialize (Hd x Hx). lia.
    - destruct Hx as [Hx|Hx]; [lia|]. specialize (Hd x Hx). lia. }
  assert (R6 : rep_elems m5 P te vs2 (o' + S)).
  { rewrite <- (Z.add_0_r (o' + S)). apply (elems_shift m2 m5 P P te (o' + S) (o' + S)); [congruence|intros x Hx; apply HR5; right; exact Hx|auto|lia|lia| | |rewrite Z.add_0_r; exact R2].
    - fold S rest. lia.
    - fold S rest. intros i Hi. apply HR5. left. lia. }
  assert (R7 : rep_elems m5 (seg (a + len) (pay_list te (vs1 ++ [v]))) te (vs1 ++ [v]) a).
  { rewrite pay_list_app. cbn [pay_list fold_right]. apply elems_app.
    - assert (HR7 : forall x, a <= x < o' \/ a + len <= x < a + len + pay_list te vs1 -> rd m5 x = rd m2 x).
      { intros x Hx. destruct OC5 as (_ & OC5). destruct OC4 as (_ & OC4). rewrite OC5, OC4; [reflexivity|unfold ca; lia|lia]. }
      rewrite <- (Z.add_0_r a) at 2. apply (elems_shift m2 m5 (seg (a + len) (pay_list te vs1)) _ te a a); [congruence| | |lia|lia| | |rewrite Z.add_0_r; exact R1].
      + intros x Hx. apply HR7. right. exact Hx.
      + intros x Hx. unfold seg in *. lia.
      + fold S. unfold o' in *. lia.
      + fold S. intros i Hi. apply HR7. left. unfold o'. lia.
    - cbn [rep_elems]. fold S o'. split; [|exact I]. exists (blank te ws4). split; [exact W5|]. apply blank_rep.
      eapply rep_frame; [exact Hms5| | |exact R4].
      + intros x Hx. apply OC5. unfold seg in Hx. lia.
      + intros x Hx. unfold seg, ca in *. lia. }
  clearbody ls6. apply wp_brif_eqz; intros Hr0.
  - (* last element *)
    assert (Hv2' : vs2 = []). { destruct vs2 as [|x vs2]; [reflexivity|]. exfalso. unfold rest in Hr0. cbn [length] in Hr0. clear - Hr0 HSp. lia. }
    assert (Hlo : (o < length ls6)%nat) by (apply lkeep_len in K6; destruct Lo; lia). assert (Hlnn : (n < length ls6)%nat) by (apply lkeep_len in K6; destruct Ln; lia).
    apply wp_nil. unfold cont, qloop. cbn [cstack app clocals cstore]. unfold setstk. cbn [cstack app clocals cstore].
    apply wp_lset. apply wp_lset. apply wp_nil. unfold cont, qblock. unfold setstk. cbn [cstack app clocals cstore].
    subst vs2. wst. apply HEND.
    + eapply lkeep_trans0; [exact K6|]. eapply lkeep_trans0; apply lkeep_hide_lset; right; cbn; auto.
    + rewrite !lset_other by intuition. rewrite C6. do 2 f_equal. unfold ca, tot. rewrite Hpays. cbn [pay_list fold_right]. lia.
    + exact OC6.
    + rewrite Hvs. eapply elems_weaken; [|exact R7]. intros x Hx. unfold seg in *. lia.
    + apply lset_same. rewrite lset_len. exact Hlo.
    + rewrite lset_other by intuition. apply lset_same. exact Hlnn.
  - exists (Z.of_nat (length vs2)). split; [lia|]. exists (vs1 ++ [v]), vs2, ls6, m5.
    rewrite app_length, <- app_assoc. cbn [app length]. rewrite Nat2Z.inj_add. change (Z.of_nat 1) with 1.
    split; [exact Hvs|]. split; [reflexivity|]. split; [intros ->; apply Hr0; unfold rest; reflexivity|]. split; [reflexivity|]. split; [exact K6|].
    split; [rewrite C6, pay_list_app; do 2 f_equal; unfold ca; cbn [pay_list fold_right]; lia|].
    replace (a + (Z.of_nat (length vs1) + 1) * S) with (o' + S) by (unfold o'; lia).
    split; [exact O6|]. split; [exact N6|]. split; [exact OC6|]. split; [exact R7|exact R6].
Qed.

Definition copy_field (t : ty) (is : list nat) (co : nat) (l : lst) : list instr * lst := if has_in_memory t then copy_value t is co l else ([], l).
Lemma copy_field_ok t : copy_ok t -> forall is co l c l', copy_field t is co l = (c, l') -> lwf l -> Forall (live l) is -> live l co -> NoDup is -> ~ In co is ->
  length is = length (clar2wasm_ty t) -> copies t c l l' is co.
Proof.
  intros H is co l c l' HC Hw H1 H2 H3 H4 H5. unfold copy_field in HC. destruct (has_in_memory t) eqn:Hm; [eapply H; eauto|].
  injection HC as <- <-. apply copies_none; auto.
Qed.
Definition copy_fields (co : nat) : list (string * ty) -> list nat -> lst -> list instr * lst :=
  fix go fs is l {struct fs} :=
    match fs with
    | [] => ([], l)
    | (_, t) :: fs =>
        let n := length (clar2wasm_ty t) in
        let '(c1, l) := copy_field t (firstn n is) co l in
        let '(c2, l) := go fs (skipn n is) l in
        (c1 ++ c2, l)
    end.

Lemma split_locals n (is : list nat) co l : Forall (live l) is -> NoDup is -> ~ In co is ->
  Forall (live l) (firstn n is) /\ Forall (live l) (skipn n is) /\ NoDup (firstn n is) /\ NoDup (skipn n is) /\ ~ In co (firstn n is) /\ ~ In co (skipn n is) /\
  (forall i, In i (firstn n is) -> ~ In i (skipn n is)) /\ incl (firstn n is) is /\ incl (skipn n is) is.
Proof.
  intros Hl Hn Hc. rewrite <- (firstn_skipn n is) in Hl, Hn, Hc. apply Forall_app in Hl as (H1 & H2). rewrite in_app_iff in Hc.
  assert (HN : forall a b : list nat, NoDup (a ++ b) -> NoDup a /\ NoDup b /\ forall i, In i a -> ~ In i b).
  { clear. induction a as [|x a IH]; cbn; intros b H; [split; [constructor|auto]|]. inversion H; subst. destruct (IH _ H3) as (A & B & C). rewrite in_app_iff in H2.
    split; [constructor; tauto|]. split; auto. intros i [<-|Hi]; [tauto|auto]. }
  destruct (HN _ _ Hn) as (H3 & H4 & H5). repeat split; auto; intros i Hi; rewrite <- (firstn_skipn n is); apply in_or_app; auto.
Qed.

Lemma copies_fields fs : Forall (fun f => copy_ok (snd f)) fs -> forall is co l c l', copy_fields co fs is l = (c, l') -> lwf l -> Forall (live l) is -> live l co ->
  NoDup is -> ~ In co is -> length is = length (flat_map (fun f => clar2wasm_ty (snd f)) fs) -> copies (TTuple fs) c l l' is co.
Proof.
  induction fs as [|[fk t] fs IH]; intros HF is co l c l' HC Hw Hl Lc Hnd Hnc HL.
  - cbn in HC. injection HC as <- <-. apply copies_none; auto.
  - cbn [copy_fields] in HC. set (n := length (clar2wasm_ty t)) in *. destruct (copy_field t (firstn n is) co l) as [c1 l1] eqn:E1.
    destruct (copy_fields co fs (skipn n is) l1) as [c2 l2] eqn:E2. injection HC as <- <-. inversion HF as [|? ? HF1 HF2]; subst. cbn [snd] in HF1.
    cbn [flat_map snd] in HL. rewrite app_length in HL. fold n in HL.
    destruct (split_locals n is co l Hl Hnd Hnc) as (S1 & S2 & S3 & S4 & S5 & S6 & S7 & S8 & S9).
    assert (HL1 : length (firstn n is) = n) by (apply firstn_length_le; lia). assert (HL2 : length (skipn n is) = (length is - n)%nat) by apply skipn_length.
    destruct (copy_field_ok t HF1 _ _ _ _ _ E1 Hw S1 Lc S3 S5 HL1) as (X1 & H1).
    destruct (IH HF2 _ _ _ _ _ E2 (lext_wf _ _ X1) (live_all _ _ _ X1 S2) (lext_live _ _ _ X1 Lc) S4 S6 ltac:(lia)) as (X2 & H2). clear IH HF HF1 HF2.
    split; [eapply lext_trans; eauto|]. intros js ls k st a v ws P Q Hco Hv Hr HLs Ha Hb Hd HW.
    destruct v; cbn [rep] in Hr; try contradiction. destruct fs0 as [|[k' v] vs]; [contradiction|]. destruct Hr as (w1 & w2 & -> & -> & Hr1 & Hr2).
    change (rep_fields (smem st) P fs vs w2) in Hr2. change (payload (TTuple ((k', t) :: fs)) (CTuple ((k', v) :: vs))) with (payload t v + payloads fs vs) in *.
    pose proof (payload_nonneg t v) as Hp1. pose proof (payloads_nonneg fs vs) as Hp2.
    rewrite <- (firstn_skipn n is) in Hv. pose proof (rep_len _ _ _ _ _ Hr1) as Hw1. fold n in Hw1. apply lvals_app in Hv as (Hv1 & Hv2); [|lia].
    rewrite <- app_assoc. eapply (H1 _ _ _ _ a v w1 P _ Hco Hv1 Hr1); [apply lext_len in X2; lia|lia|lia|intros x Hx; specialize (Hd x Hx); lia|].
    intros ls1 m1 w1' K1 C1 V1 O1 R1. pose proof (proj1 O1) as Hms1.
    assert (Hv2' : lvals ls1 (skipn n is) w2).
    { eapply lvals_keep; [exact K1| |exact Hv2]. apply Forall_forall. intros i Hi. apply live_hide. rewrite Forall_forall in S2. split; [auto|].
      intros [<-|Hx]; [contradiction|exact (S7 _ Hx Hi)]. }
    eapply (H2 _ _ _ (with_mem st m1) (a + payload t v) (CTuple vs) w2 P _ C1 Hv2').
    + cbn [smem with_mem]. rewrite rep_tuple. rewrite <- rep_tuple in Hr2 |- *. eapply rep_frame; [exact Hms1| |intros x Hx; exact Hx|exact Hr2].
      intros x Hx. apply O1. specialize (Hd x Hx). lia.
    + apply lkeep_len in K1. lia.
    + lia.
    + cbn [smem with_mem]. change (payload (TTuple fs) (CTuple vs)) with (payloads fs vs). lia.
    + change (payload (TTuple fs) (CTuple vs)) with (payloads fs vs). intros x Hx. specialize (Hd x Hx). lia.
    + change (payload (TTuple fs) (CTuple vs)) with (payloads fs vs). cbn [smem with_mem]. intros ls2 m2 w2' K2 C2 V2 O2 R2. rewrite with_mem_twice.
      apply (HW ls2 m2 (w1' ++ w2')).
      * eapply lkeep_trans0; [eapply hide_keep_some; [apply lext_refl; auto| |exact K1]|eapply hide_keep_some; [exact X1| |exact K2]].
        -- intros i [<-|Hi]; [left; reflexivity|right; auto].
        -- intros i [<-|Hi]; [left; reflexivity|right; auto].
      * rewrite Z.add_assoc. exact C2.
      * rewrite <- (firstn_skipn n is). apply lvals_app; [pose proof (rep_len _ _ _ _ _ R1) as Hq; fold n in Hq; lia|]. split; [|exact V2].
        eapply lvals_keep; [exact K2| |exact V1]. apply Forall_forall. intros i Hi. apply live_hide. rewrite Forall_forall in S1. split; [eapply lext_live; [exact X1|auto]|].
        intros [<-|Hx]; [contradiction|exact (S7 _ Hi Hx)].
      * eapply only_trans; [eapply only_weaken; [exact O1|lia|lia]|eapply only_weaken; [exact O2|lia|lia]].
      * cbn [rep]. exists w1', w2'. split; [reflexivity|]. split; [reflexivity|]. split.
        -- eapply rep_frame; [apply O2| | |exact R1]; [intros x Hx; apply O2; unfold seg in Hx; lia|intros x Hx; unfold seg in *; lia].
        -- change (rep m2 (seg a (payload t v + payloads fs vs)) (TTuple fs) (CTuple vs) w2'). eapply rep_weaken; [|exact R2]. intros x Hx; unfold seg in *; lia.
Qed.

Lemma copy_value_ok t : copy_ok t.
Proof.
  induction t using ty_ind'; try (apply copies_list; assumption); intros is co l c l' HC Hw Hl Lc Hnd Hnc HL.
  1-4: cbn in HC; injection HC as <- <-; apply copies_none; auto.
  1-5: pose proof (f_equal fst HC) as HC1; pose proof (f_equal snd HC) as HC2; cbn [fst snd copy_value] in HC1, HC2; clear HC; subst c l'.
  - apply (copies_bytes _ (fun v => match v with CPrin p => prin_bytes p | _ => [] end)); auto. intros m P v ws Hr. destruct v; cbn [rep] in Hr; try contradiction. auto.
  - apply (copies_bytes _ (fun v => match v with CCallable p _ => prin_bytes p | _ => [] end)); auto. intros m P v ws Hr. destruct v; cbn [rep] in Hr; try contradiction. 
    destruct Hr as (-> & Hr). split; auto. split; auto. intros m' P' ws' H'. cbn [rep]. auto.
  - apply (copies_bytes _ (fun v => match v with CBuff p => p | _ => [] end)); auto. intros m P v ws Hr. destruct v; cbn [rep] in Hr; try contradiction. auto.
  - apply (copies_bytes _ (fun v => match v with CAscii p => p | _ => [] end)); auto. intros m P v ws Hr. destruct v; cbn [rep] in Hr; try contradiction. auto.
  - apply (copies_bytes _ (fun v => match v with CUtf8 p => flat_map (be_bytes 4) p | _ => [] end)); auto. intros m P v ws Hr. destruct v; cbn [rep] in Hr; try contradiction. auto.
  - (* optional *)
    cbn [copy_value] in HC. destruct (copy_value t (tl is) co l) as [c1 l1] eqn:E1. injection HC as <- <-. cbn [clar2wasm_ty length] in HL.
    destruct is as [|i0 is]; [discriminate|]. cbn [tl] in E1. unfold lnth. cbn [nth]. inversion Hl as [|? ? L0 Hl2]; subst. inversion Hnd as [|? ? N0 Hnd2]; subst. cbn [In] in Hnc.
    destruct (IHt _ _ _ _ _ E1 Hw Hl2 Lc Hnd2 ltac:(tauto) ltac:(cbn in HL; lia)) as (X1 & H1). split; [exact X1|].
    intros js ls k st a v ws P Q Hco Hv Hr HLs Ha Hb Hd HW. cbn [app]. destruct (rep_opt _ _ _ _ _ Hr) as [(-> & ws' & -> & Ht)|(x & -> & ws' & -> & Hx)];
      inversion Hv as [|? ? ? ? V0 Hv2]; subst; (eapply wp_lget; [exact V0|]); apply wp_if0; cbn [Z.eqb].
    + apply wp_nil. wst. rewrite <- (with_mem_id st). cbn [payload] in *. eapply (HW ls (smem st)); [apply lkeep_refl|rewrite Z.add_0_r; exact Hco|exact Hv|apply only_refl|].
      cbn [rep]. exists ws'. auto.
    + cbn [payload] in *. rewrite <- (app_nil_r c1). eapply (H1 _ _ _ _ a x ws' P _ Hco Hv2 Hx HLs Ha Hb Hd). intros ls1 m1 w1 K1 C1 V1 O1 R1.
      apply wp_nil. wst. eapply (HW ls1 m1 (VI32 1 :: w1)); [|exact C1| |exact O1|].
      * eapply hide_keep_some; [apply lext_refl; auto| |exact K1]. intros i [<-|Hi]; cbn; auto.
      * constructor; [|exact V1]. rewrite (lkeep_get _ _ _ _ K1); [exact V0|]. apply live_hide. split; [exact L0|]. intros [Hx1|Hx1]; [apply Hnc; left; congruence|contradiction].
      * cbn [rep]. exists w1. auto.
  - (* response *)
    cbn [copy_value] in HC. destruct is as [|i0 is]; [discriminate|]. cbn [tl] in HC. set (n := length (clar2wasm_ty t1)) in *.
    change (if has_in_memory t1 then copy_value t1 (firstn n is) co l else ([], l)) with (copy_field t1 (firstn n is) co l) in HC.
    destruct (copy_field t1 (firstn n is) co l) as [c1 l1] eqn:E1.
    change (if has_in_memory t2 then copy_value t2 (skipn n is) co l1 else ([], l1)) with (copy_field t2 (skipn n is) co l1) in HC.
    destruct (copy_field t2 (skipn n is) co l1) as [c2 l2] eqn:E2. injection HC as <- <-.
    cbn [clar2wasm_ty length] in HL. rewrite app_length in HL. fold n in HL.
    inversion Hl as [|? ? L0 Hl2]; subst. inversion Hnd as [|? ? N0 Hnd2]; subst. cbn [In] in Hnc. unfold lnth; cbn [nth].
    destruct (split_locals n is co l Hl2 Hnd2 ltac:(tauto)) as (S1 & S2 & S3 & S4 & S5 & S6 & S7 & S8 & S9).
    assert (HL1 : length (firstn n is) = n) by (apply firstn_length_le; lia). assert (HL2 : length (skipn n is) = (length is - n)%nat) by apply skipn_length.
    destruct (copy_field_ok t1 IHt1 _ _ _ _ _ E1 Hw S1 Lc S3 S5 HL1) as (X1 & H1).
    destruct (copy_field_ok t2 IHt2 _ _ _ _ _ E2 (lext_wf _ _ X1) (live_all _ _ _ X1 S2) (lext_live _ _ _ X1 Lc) S4 S6 ltac:(lia)) as (X2 & H2). 
    split; [eapply lext_trans; eauto|].
    intros js ls k st a v ws P Q Hco Hv Hr HLs Ha Hb Hd HW. cbn [app].
    destruct (rep_resp _ _ _ _ _ _ Hr) as [(x & -> & w1 & w2 & -> & Hx & Hty)|(x & -> & w1 & w2 & -> & Hty & Hx)];
      inversion Hv as [|? ? ? ? V0 Hv2]; subst; (eapply wp_lget; [exact V0|]); apply wp_if0; cbn [Z.eqb]; cbn [payload] in *;
      rewrite <- (firstn_skipn n is) in Hv2; pose proof (F2_len _ _ _ Hty) as Hlt; pose proof (rep_len _ _ _ _ _ Hx) as Hlx; try fold n in Hlt; try fold n in Hlx;
      (apply lvals_app in Hv2 as (Hv1 & Hv3); [|lia]).
    + rewrite <- (app_nil_r c1). eapply (H1 _ _ _ _ a x w1 P _ Hco Hv1 Hx ltac:(apply lext_len in X2; lia) Ha Hb Hd). intros ls1 m1 w1' K1 C1 V1 O1 R1.
      apply wp_nil. wst. eapply (HW ls1 m1 (VI32 1 :: w1' ++ w2)); [|exact C1| |exact O1|].
      * eapply hide_keep_some; [apply lext_refl; auto| |exact K1]. intros i [<-|Hi]; cbn; auto.
      * constructor.
        -- rewrite (lkeep_get _ _ _ _ K1); [exact V0|]. apply live_hide. split; [exact L0|]. intros [Hx1|Hx1]; [apply Hnc; left; congruence|]. apply S8 in Hx1. contradiction.
        -- rewrite <- (firstn_skipn n is). apply lvals_app; [pose proof (rep_len _ _ _ _ _ R1) as Hq; fold n in Hq; lia|]. split; [exact V1|].
           eapply lvals_keep; [exact K1| |exact Hv3]. apply Forall_forall. intros i Hi. apply live_hide. rewrite Forall_forall in S2. split; [auto|].
           intros [<-|Hx1]; [contradiction|exact (S7 _ Hx1 Hi)].
      * cbn [rep]. exists w1', w2. auto.
    + rewrite <- (app_nil_r c2). assert (HLl1 : (llen l1 <= length ls)%nat) by (apply lext_len in X2; lia).
      eapply (H2 _ _ _ _ a x w2 P _ Hco Hv3 Hx HLs Ha Hb Hd). intros ls1 m1 w2' K1 C1 V1 O1 R1.
      apply wp_nil. wst. eapply (HW ls1 m1 (VI32 0 :: w1 ++ w2')); [|exact C1| |exact O1|].
      * eapply hide_keep_some; [exact X1| |exact K1]. intros i [<-|Hi]; cbn; auto.
      * constructor.
        -- rewrite (lkeep_get _ _ _ _ K1); [exact V0|]. apply live_hide. split; [eapply lext_live; eauto|]. intros [Hx1|Hx1]; [apply Hnc; left; congruence|]. apply S9 in Hx1. contradiction.
        -- rewrite <- (firstn_skipn n is). apply lvals_app; [lia|]. split; [|exact V1].
           eapply lvals_keep; [exact K1| |exact Hv1]. apply Forall_forall. intros i Hi. apply live_hide. rewrite Forall_forall in S1. split; [eapply lext_live; [exact X1|auto]|].
           intros [<-|Hx1]; [contradiction|exact (S7 _ Hi Hx1)].
      * cbn [rep]. exists w1, w2'. auto.
  - (* tuple *)
    eapply copies_fields; [exact H|exact HC|auto..].
Qed.
End Copy.
