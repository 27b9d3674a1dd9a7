(** * Correctness of emitted expression code: tuples (proof support) *)
From Coq Require Import ZArith String List Bool Lia.
Import ListNotations.
From Verif Require Import Wasm Std StdEnv WasmLogic WasmTac Mem MemFacts Bytes Spec SpecBytes SpecUtf8 ArithProofs Clar Rep RepFacts Emit EmitFacts EmitProofs Equal EqualProofs
  CallProofs ArgProofs Ast SpecLang Lang Typing LangFacts LangBase LangCtl LangEarly LangMem LangSeq LangList LangConcat.
Open Scope string_scope.
Open Scope list_scope.
Open Scope Z_scope.


Lemma field_ty_assoc k ts : field_ty k ts = match assoc k ts with Some t => t | None => TNo end.
Proof. induction ts as [|[k' t] ts IH]; cbn; [reflexivity|]. destruct (String.eqb k' k); auto. Qed.
Lemma assoc_in {A} k (l : list (string * A)) v : assoc k l = Some v -> In (k, v) l.
Proof. induction l as [|[k' w] l IH]; cbn; [discriminate|]. destruct (String.eqb_spec k' k); intros H; [injection H as <-; subst; left; reflexivity|right; auto]. Qed.
Lemma in_assoc {A} k (l : list (string * A)) v : NoDup (map fst l) -> In (k, v) l -> assoc k l = Some v.
Proof.
  induction l as [|[k' w] l IH]; cbn; [contradiction|]. intros Hnd. inversion Hnd as [|? ? N1 N2]; subst. intros [H|H].
  - injection H as <- <-. rewrite String.eqb_refl. reflexivity.
  - destruct (String.eqb_spec k' k) as [->|]; [|auto]. exfalso. apply N1. apply in_map with (f := fst) in H. exact H.
Qed.

(** ** Locals holding the fields of a tuple *)
Fixpoint at_locals (m : mem) (P : Z -> Prop) (ls : list val) (ts : list (string * ty)) (iss : list (list nat)) (vs : list (string * value)) : Prop :=
  match ts, iss, vs with
  | [], [], [] => True
  | (k, t) :: ts, is :: iss, (k', v) :: vs =>
      (k = k' /\ has_type t v /\ exists ws, lvals ls is ws /\ rep m P t v ws) /\ at_locals m P ls ts iss vs
  | _, _, _ => False
  end.
Definition keyed (k : string) (iss : list (string * list nat)) := bound_to k iss.

(** reading back one field *)
Lemma rep_fields_split m P fs : forall vs ws, rep_fields m P fs vs ws -> exists wss, ws = concat wss /\ Forall2 (fun f w => length w = length (clar2wasm_ty (snd f))) fs wss /\
  forall k t v, NoDup (map fst fs) -> In (k, t) fs -> assoc k vs = Some v -> exists w, In ((k, t), w) (combine fs wss) /\ rep m P t v w.
Proof.
  induction fs as [|[k t] fs IH]; intros [|[k' v] vs] ws H; cbn [rep_fields] in H; try contradiction.
  - subst. exists []. split; [reflexivity|]. split; [constructor|]. intros ? ? ? _ [].
  - destruct H as (w1 & w2 & -> & -> & H1 & H2). destruct (IH _ _ H2) as (wss & -> & L1 & L2). exists (w1 :: wss). split; [reflexivity|].
    split; [constructor; [symmetry; eapply F2_len; eapply rep_typed; exact H1|exact L1]|].
    intros k t' v' Hnd Hin Ha. cbn [map fst] in Hnd. inversion Hnd as [|? ? N1 N2]; subst. cbn [assoc] in Ha. destruct Hin as [Hin|Hin].
    + injection Hin as <- <-. rewrite String.eqb_refl in Ha. injection Ha as <-. exists w1. split; [left; reflexivity|exact H1].
    + destruct (String.eqb_spec k' k) as [->|].
      * exfalso. apply N1. apply in_map with (f := fst) in Hin. exact Hin.
      * destruct (L2 _ _ _ N2 Hin Ha) as (w & W1 & W2). exists w. split; [right; exact W1|exact W2].
Qed.
Lemma typed_split (fs : list (string * ty)) : forall ws, Forall2 wtyped (flat_map (fun f => clar2wasm_ty (snd f)) fs) ws -> exists wss, ws = concat wss /\
  Forall2 (fun f w => Forall2 wtyped (clar2wasm_ty (snd f)) w) fs wss.
Proof.
  induction fs as [|[k t] fs IH]; intros ws H; cbn [flat_map snd] in H.
  - inversion H; subst. exists []. split; [reflexivity|constructor].
  - apply Forall2_app_inv_l in H. destruct H as (w1 & w2 & H1 & H2 & ->). destruct (IH _ H2) as (wss & -> & Hw). exists (w1 :: wss). split; [reflexivity|constructor; auto].
Qed.

Lemma fields_typed_assoc fs : forall vs k t v, fields_typed fs vs -> NoDup (map fst fs) -> In (k, t) fs -> assoc k vs = Some v -> has_type t v.
Proof.
  induction fs as [|[k t] fs IH]; intros [|[k' v] vs] k0 t0 v0 H Hnd Hin Ha; cbn [fields_typed] in H; try contradiction.
  destruct H as (-> & H1 & H2). cbn [map fst] in Hnd. inversion Hnd as [|? ? N1 N2]; subst. cbn [assoc] in Ha. destruct Hin as [Hin|Hin].
  - injection Hin as <- <-. rewrite String.eqb_refl in Ha. injection Ha as <-. exact H1.
  - destruct (String.eqb_spec k' k0) as [->|]; [exfalso; apply N1; apply in_map with (f := fst) in Hin; exact Hin|]. eapply IH; eauto.
Qed.
Lemma fields_typed_key fs : forall vs k, fields_typed fs vs -> (exists v, assoc k vs = Some v) <-> (exists t, assoc k fs = Some t).
Proof.
  induction fs as [|[k t] fs IH]; intros [|[k' v] vs] k0 H; cbn [fields_typed] in H; try contradiction; cbn [assoc].
  - split; intros (x & Hx); discriminate.
  - destruct H as (-> & H1 & H2). destruct (String.eqb k' k0); [split; intros _; eauto|]. apply IH; auto.
Qed.

(** ** [merge]: the locals of the result *)
Lemma merge_locals_ok ts : forall l m l', merge_locals ts l = (m, l') -> lwf l ->
  lext l l' /\ map fst m = map fst ts /\ Forall2 (fun f x => length (snd x) = length (clar2wasm_ty (snd f))) ts m /\
  Forall (fun x => Forall (live l') (snd x) /\ Forall (fun i => ~ live l i) (snd x)) m /\ NoDup (concat (map snd m)).
Proof.
  induction ts as [|[k t] ts IH]; intros l m l' H Hw; cbn [merge_locals] in H.
  - injection H as <- <-. split; [apply lext_refl; exact Hw|]. split; [reflexivity|]. split; [constructor|]. split; constructor.
  - destruct (add_locals (clar2wasm_ty t) l) as [is l1] eqn:Ea. destruct (merge_locals ts l1) as [m1 l2] eqn:Em. injection H as <- <-.
    destruct (add_locals_ok _ _ _ _ Ea Hw) as (A1 & A2 & A3 & A4 & A5 & A6). destruct (IH _ _ _ Em (lext_wf _ _ A1)) as (B1 & B2 & B3 & B4 & B5).
    split; [eapply lext_trans; eauto|]. split; [cbn; f_equal; exact B2|]. split; [constructor; [exact A5|exact B3]|]. split.
    + constructor; [cbn [snd]; split; [eapply live_all; eauto|exact A3]|]. eapply Forall_impl; [|exact B4]. intros x (X1 & X2). split; [exact X1|].
      eapply Forall_impl; [|exact X2]. intros i Hi Hl. apply Hi. exact (lext_live _ _ _ A1 Hl).
    + cbn [map concat snd]. clear - A2 A4 B4 B5. induction is as [|i is IH]; [exact B5|]. inversion A2 as [|? ? P1 P2]; subst. inversion A4 as [|? ? Q1 Q2]; subst.
      cbn [app]. constructor; [|auto]. intros Hin. apply in_app_or in Hin. destruct Hin as [Hin|Hin]; [exact (Q1 Hin)|].
      apply in_concat in Hin. destruct Hin as (x & X1 & X2). apply in_map_iff in X1. destruct X1 as (y & <- & Hy). rewrite Forall_forall in B4. destruct (B4 _ Hy) as (_ & Y2).
      rewrite Forall_forall in Y2. exact (Y2 _ X2 P1).
Qed.
Lemma nodup_app_r {A} (x y : list A) : NoDup (x ++ y) -> NoDup y.
Proof. induction x; cbn; [auto|]. intros H. inversion H; auto. Qed.
Lemma nodup_app_l {A} (x y : list A) : NoDup (x ++ y) -> NoDup x.
Proof. induction x; cbn; [constructor|]. intros H. inversion H; subst. constructor; auto. intros Hi. apply H2. apply in_or_app. auto. Qed.
Lemma nodup_app_not {A} (x y : list A) i : NoDup (x ++ y) -> In i x -> ~ In i y.
Proof. induction x; cbn; [intros _ []|]. intros H. inversion H; subst. intros [->|Hi]; [intros Hy; apply H2; apply in_or_app; auto|auto]. Qed.
Lemma bound_in k m i : In i (bound_to k m) -> exists is, In (k, is) m /\ bound_to k m = is.
Proof. unfold bound_to. destruct (assoc k m) eqn:Ea; [|intros []]. intros _. exists l. split; [apply assoc_in; exact Ea|reflexivity]. Qed.
Lemma bound_nodup k m : NoDup (concat (map snd m)) -> NoDup (bound_to k m).
Proof.
  unfold bound_to. induction m as [|[x is] m IH]; cbn [assoc map concat snd]; intros H; [constructor|]. destruct (String.eqb x k); [eapply nodup_app_l; exact H|].
  apply IH. eapply nodup_app_r; exact H.
Qed.
Lemma bound_disj k k' i m : NoDup (concat (map snd m)) -> k <> k' -> In i (bound_to k m) -> ~ In i (bound_to k' m).
Proof.
  assert (Hc : forall q n, In i (bound_to q n) -> In i (concat (map snd n))).
  { intros q n Hq. destruct (bound_in _ _ _ Hq) as (is & H1 & H2). rewrite H2 in Hq. apply in_concat. exists is. split; [|exact Hq]. apply in_map with (f := snd) in H1. exact H1. }
  intros H Hk. induction m as [|[x is] m IH]; [intros []|]. cbn [map concat snd] in H. pose proof (nodup_app_not _ _ i H) as Hn. specialize (IH (nodup_app_r _ _ H)).
  specialize (Hc) . unfold bound_to in *. cbn [assoc]. destruct (String.eqb_spec x k) as [->|Hxk]; destruct (String.eqb_spec k k') as [->|Hk'].
  - congruence.
  - intros Hi Hi'. apply (Hn Hi). apply (Hc k' m). exact Hi'.
  - congruence.
  - destruct (String.eqb_spec x k') as [->|Hxk']; [|exact IH]. intros Hi Hi'. apply (Hn Hi'). apply (Hc k m). exact Hi.
Qed.
Lemma bound_map m : NoDup (map fst m) -> map snd m = map (fun k => bound_to k m) (map fst m).
Proof.
  intros Hnd. rewrite map_map. apply map_ext_in. intros [k is] Hin. cbn [fst snd]. unfold bound_to. rewrite (in_assoc _ _ _ Hnd Hin). reflexivity.
Qed.
Lemma split_typed fs : forall vs k v, fields_typed fs vs -> assoc k vs = Some v -> In (k, field_ty k fs) fs.
Proof.
  intros vs k v Ht Ha. destruct (proj1 (fields_typed_key _ _ k Ht) (ex_intro _ v Ha)) as (t & Hk). rewrite field_ty_assoc, Hk. apply assoc_in. exact Hk.
Qed.

Section Tup.
Context {HS : Type} {CH : chain HS} (E : env HS) (HE : has_std E) (rt : ty) (L : list (ty * value * Z)) (X : Z) (HX0 : 0 <= X).
Notation wp := (wp E).
Notation impl := (impl E rt L X).
Notation ctx := (ctx L X).
Notation sub_ok := (sub_ok E rt L X).
Notation impl_next := (impl_next E rt L X).
Notation impl_next1 := (impl_next1 E rt L X).
Notation impl_last := (impl_last E rt L X).
Notation impl_block := (impl_block E rt L X).
Notation impl_fr := (impl_fr E rt L X).
Notation impl_ext := (impl_ext E rt L X).
Ltac fr_of H := let P := fresh "P" in pose proof (impl_fr _ _ _ _ _ H) as P.
Ltac ext_of H E X := let W := fresh in
  match type of E with ?c ?d ?B ?l = _ =>
    assert (W : lwf l) by (assumption || (eapply lext_wf; eassumption));
    pose proof (impl_ext _ _ _ _ _ _ _ _ _ _ H E W) as X; clear W end.
Ltac lenl := repeat match goal with H : lext _ _ |- _ => apply lext_len in H | H : moved _ _ _ _ _ _ _ _ |- _ => apply m_ls, lkeep_len in H end; lia.

Lemma push_fields m P js ls (st : store HS) Q : forall ts iss vs k, at_locals m P ls ts iss vs ->
  (forall ws, rep_fields m P ts vs ws -> fields_typed ts vs -> wp js (mkcfg ls (rev ws ++ k) st) Q) ->
  wp (flat_map push_locals iss ++ js) (mkcfg ls k st) Q.
Proof.
  induction ts as [|[x t] ts IH]; intros [|is iss] [|[x' v] vs] k H HW; cbn [at_locals] in H; try contradiction.
  - apply (HW [] eq_refl I).
  - destruct H as ((-> & H1 & ws & H2 & H3) & H4). cbn [flat_map]. rewrite <- app_assoc. eapply wp_lgets; [exact H2|].
    eapply IH; [exact H4|]. intros w2 R2 T2. rewrite app_assoc, <- rev_app_distr. apply HW.
    + cbn [rep_fields]. exists ws, w2. split; [reflexivity|]. split; [reflexivity|]. split; [exact H3|exact R2].
    + cbn [fields_typed]. split; [reflexivity|]. split; [exact H1|exact T2].
Qed.

(** storing the selected fields of a tuple on the stack *)
Lemma store_fields (sel : string -> bool) mp js K (st : store HS) Q : forall fs wss ls,
  Forall2 (fun f w => length w = length (clar2wasm_ty (snd f))) fs wss -> NoDup (map fst fs) ->
  (forall k t, In (k, t) fs -> sel k = true -> length (bound_to k mp) = length (clar2wasm_ty t)) ->
  (forall k, NoDup (bound_to k mp)) -> (forall k, Forall (fun i => (i < length ls)%nat) (bound_to k mp)) ->
  (forall k k' i, k <> k' -> In i (bound_to k mp) -> ~ In i (bound_to k' mp)) ->
  (forall ls', length ls' = length ls -> (forall i, (forall k t, In (k, t) fs -> sel k = true -> ~ In i (bound_to k mp)) -> nth_error ls' i = nth_error ls i) ->
     (forall k t w, In ((k, t), w) (combine fs wss) -> sel k = true -> lvals ls' (bound_to k mp) w) -> wp js (mkcfg ls' K st) Q) ->
  wp (flat_map (fun f => if sel (fst f) then map LSet (rev (bound_to (fst f) mp)) else drop_value (snd f)) (rev fs) ++ js) (mkcfg ls (rev (concat wss) ++ K) st) Q.
Proof.
  intros fs wss ls HF. revert js K. induction HF as [|[k t] w fs wss Hw HF IH]; intros js K Hnd Hlen Hn1 Hb Hd HW.
  - cbn. apply HW; [reflexivity|reflexivity|intros ? ? ? []].
  - cbn [map fst] in Hnd. inversion Hnd as [|? ? N1 N2]; subst. cbn [rev]. rewrite flat_map_app, <- app_assoc. cbn [concat]. rewrite rev_app_distr, <- app_assoc.
    apply IH; [exact N2|intros; eapply Hlen; [right; eauto|eauto]|exact Hn1|exact Hb|exact Hd|]. intros ls1 L1 O1 V1. cbn [flat_map fst snd app]. rewrite app_nil_r.
    cbn [snd] in Hw. destruct (sel k) eqn:Es.
    + assert (Hl := Hlen k t (or_introl eq_refl) Es). apply wp_lsets; [rewrite rev_length; lia|]. rewrite rev_involutive. apply HW.
      * rewrite setl_len. exact L1.
      * intros i Hi. rewrite setl_other by (apply (Hi k t); [left; reflexivity|exact Es]). apply O1. intros k1 t1 H1 H2. apply (Hi k1 t1); [right; exact H1|exact H2].
      * intros k1 t1 w1 [H1|H1] H2.
        -- injection H1 as <- <- <-. apply setl_get; [apply Hn1|rewrite L1; apply Hb|lia].
        -- specialize (V1 _ _ _ H1 H2). assert (Hk : k1 <> k). { intros ->. apply N1. apply in_combine_l in H1. apply in_map with (f := fst) in H1. exact H1. }
           assert (Hdj : forall i, In i (bound_to k1 mp) -> ~ In i (bound_to k mp)) by (intros i; apply Hd; exact Hk).
           clear - V1 Hdj. unfold lvals in *. induction V1 as [|i v is ws Hi V1 IH]; constructor; [rewrite setl_other; [exact Hi|apply Hdj; left; reflexivity]|apply IH; intros j Hj; apply Hdj; right; exact Hj].
    + eapply wp_drops; [exact Hw|]. apply HW; [exact L1| |].
      * intros i Hi. apply O1. intros k1 t1 H1 H2. apply (Hi k1 t1); [right; exact H1|exact H2].
      * intros k1 t1 w1 [H1|H1] H2; [injection H1 as <- <- <-; congruence|]. eapply V1; eauto.
Qed.

(** ** [get] *)
Lemma get_words k t ts mp ns js K ls (st : store HS) Q wss l l1 l2 : add_locals (rev (clar2wasm_ty t)) l1 = (ns, l2) -> lwf l1 -> lext l l1 -> (llen l2 <= length ls)%nat ->
  NoDup (map fst ts) -> In (k, t) ts -> Forall2 (fun f w => length w = length (clar2wasm_ty (snd f))) ts wss -> mp = [(k, rev ns)] ->
  (forall ls' w, lkeep l ls ls' -> In ((k, t), w) (combine ts wss) -> wp js (mkcfg ls' (rev w ++ K) st) Q) ->
  wp (flat_map (fun f => if String.eqb (fst f) k then map LSet ns else drop_value (snd f)) (rev ts) ++ push_locals (rev ns) ++ js) (mkcfg ls (rev (concat wss) ++ K) st) Q.
Proof.
  intros EA Hw Hx HL Hnd Hin HF Emp HW. destruct (add_locals_ok _ _ _ _ EA Hw) as (A1 & A2 & A3 & A4 & A5 & A6). rewrite rev_length in A5.
  assert (Hbt : forall k', bound_to k' mp = if String.eqb k k' then rev ns else []) by (intros k'; rewrite Emp; unfold bound_to; cbn [assoc]; destruct (String.eqb k k'); reflexivity).
  rewrite (flat_map_ext _ (fun f => if String.eqb (fst f) k then map LSet (rev (bound_to (fst f) mp)) else drop_value (snd f))).
  2:{ intros f. rewrite Hbt. rewrite (String.eqb_sym k). destruct (String.eqb (fst f) k); [rewrite rev_involutive; reflexivity|reflexivity]. }
  assert (Hfd : exists w, In ((k, t), w) (combine ts wss)).
  { clear - HF Hin. induction HF as [|f w fs wss Hf HF IH]; [contradiction|]. destruct Hin as [->|Hin]; [exists w; left; reflexivity|]. destruct (IH Hin) as (w' & H'). exists w'. right. exact H'. }
  apply (store_fields (fun x => String.eqb x k)); [exact HF|exact Hnd| | | | |].
  - intros k1 t1 H1 H2. apply String.eqb_eq in H2. subst k1. rewrite Hbt, String.eqb_refl, rev_length.
    pose proof (in_assoc _ _ _ Hnd H1). pose proof (in_assoc _ _ _ Hnd Hin). congruence.
  - intros k1. rewrite Hbt. destruct (String.eqb k k1); [apply NoDup_rev; exact A4|constructor].
  - intros k1. rewrite Hbt. destruct (String.eqb k k1); [|constructor]. apply Forall_rev. eapply Forall_impl; [|exact A2]. intros i (Hi & _). lia.
  - intros k1 k2 i Hk. rewrite !Hbt. destruct (String.eqb_spec k k1); [|intros []]. destruct (String.eqb_spec k k2); [congruence|]. intros _ [].
  - intros ls' Hl Ho Hv. destruct Hfd as (w & Hwi). specialize (Hv _ _ _ Hwi (String.eqb_refl k)). rewrite Hbt, String.eqb_refl in Hv.
    eapply wp_lgets; [exact Hv|]. apply (HW ls' w); [|exact Hwi]. split; [exact Hl|]. intros i Hi. apply Ho. intros k1 t1 _ H2. apply String.eqb_eq in H2. subst k1.
    rewrite Hbt, String.eqb_refl. intros Hin'. apply in_rev in Hin'. rewrite Forall_forall in A3. exact (A3 _ Hin' (lext_live _ _ _ Hx Hi)).
Qed.

Lemma get_ok G k ts fa a ma (opt : bool) : ty_ok (TTuple ts) -> has_key k ts = true ->
  impl G (if opt then TOpt (TTuple ts) else TTuple ts) fa a ma ->
  impl G (if opt then TOpt (field_ty k ts) else field_ty k ts) fa (e_get k ts a)
    (fun r => bind (ma r) (fun v => match v with
      | CTuple fs => of_opt (assoc k fs)
      | CSome (CTuple fs) => of_opt (option_map CSome (assoc k fs))
      | CNone => ret CNone
      | _ => bad end)).
Proof.
  intros Hok Hk HA. fr_of HA. split; [lia|]. intros d B l code l' HC Hw. unfold e_get in HC.
  destruct (a d B l) as [ca l1] eqn:Ea. destruct (add_locals (rev (clar2wasm_ty (field_ty k ts))) l1) as [ns l2] eqn:En. injection HC as <- <-.
  ext_of HA Ea Xa. destruct (add_locals_ok _ _ _ _ En (lext_wf _ _ Xa)) as (A1 & _). split; [eapply lext_trans; eauto|].
  rewrite ty_ok_tuple in Hok. destruct Hok as (_ & Hnd & _).
  assert (Hin : In (k, field_ty k ts) ts). { unfold has_key in Hk. rewrite field_ty_assoc. destruct (assoc k ts) eqn:Ek; [|discriminate]. apply assoc_in. exact Ek. }
  intros F r js ls kk st sp Q rs Hm HC HL HX HW. rewrite <- !app_assoc.
  eapply (impl_next _ _ _ _ _ _ _ _ _ _ HA Ea);
    [exact HC|eapply moved_refl; eauto|lia|apply lext_refl; auto|eapply ctx_less; [exact HC|lia]|exact Hm|exact HX|lenl|].
  intros v h ls1 st1 sp1 ws HG HM1 Hm1 HL1. cbv beta in Hm1.
  pose proof (g_type _ _ _ _ _ _ _ _ _ _ _ _ _ HG) as Ht. pose proof (g_rep _ _ _ _ _ _ _ _ _ _ _ _ _ HG) as Hr.
  assert (HLs : (llen l2 <= length ls1)%nat) by lenl.
  destruct opt.
  - destruct (rep_opt _ _ _ _ _ Hr) as [(-> & w1 & -> & Hw1)|(x & -> & w1 & -> & Hw1)]; cbn [rev]; rewrite <- app_assoc.
    + injection Hm1 as <-. cbn [clar2wasm_ty] in Hw1. destruct (typed_split _ _ Hw1) as (wss & -> & Hws).
      eapply (get_words k (field_ty k ts) ts); [exact En|eapply lext_wf; eauto|exact Xa|exact HLs|exact Hnd|exact Hin| |reflexivity|].
      * clear - Hws. induction Hws as [|f w fs ws0 Hf H IH]; constructor; auto. symmetry. eapply F2_len. exact Hf.
      * intros ls' w Hkp Hwi. change (rev w ++ [VI32 0] ++ kk) with (rev w ++ [VI32 0] ++ kk). rewrite app_assoc. change (rev w ++ [VI32 0]) with (rev (VI32 0 :: w)).
        apply (HW _ _ _ st1 sp1 (VI32 0 :: w) eq_refl). constructor; [eapply moved_more; [eapply moved_ls; [exact HM1|exact Hkp]|lia]| |exact I|reflexivity].
        cbn [rep]. eexists. split; [reflexivity|]. revert Hwi. generalize (field_ty k ts). intros t0 Hwi. clear - Hws Hwi. induction Hws as [|f w0 fs ws0 Hf H IH]; [contradiction|]. destruct Hwi as [E1|Hwi]; [injection E1 as -> ->; exact Hf|auto].
    + cbn [has_type] in Ht. destruct x; try contradiction. change (fields_typed ts fs) in Ht. rewrite rep_tuple in Hw1.
      unfold of_opt in Hm1. destruct (assoc k fs) as [x|] eqn:Ex; cbn [option_map] in Hm1; [|discriminate]. injection Hm1 as <-.
      destruct (rep_fields_split _ _ _ _ _ Hw1) as (wss & -> & Hl & Hf).
      eapply (get_words k (field_ty k ts) ts); [exact En|eapply lext_wf; eauto|exact Xa|exact HLs|exact Hnd|exact Hin|exact Hl|reflexivity|].
      intros ls' w Hkp Hwi. rewrite app_assoc. change (rev w ++ [VI32 1]) with (rev (VI32 1 :: w)).
      destruct (Hf _ _ _ Hnd Hin Ex) as (w' & W1 & W2).
      assert (w' = w). { revert Hwi W1. generalize (field_ty k ts). intros t0 Hwi W1. clear - Hwi W1 Hnd. revert wss Hwi W1. induction ts as [|[k1 t1] ts IH]; intros [|w1 wss] H1 H2; cbn [combine] in *; try contradiction. cbn [map fst] in Hnd. inversion Hnd as [|? ? N1 N2]; subst.
        destruct H1 as [H1|H1], H2 as [H2|H2]; try congruence.
        - injection H1 as -> _ ->. exfalso. apply N1. apply in_combine_l in H2. apply in_map with (f := fst) in H2. exact H2.
        - injection H2 as -> _ ->. exfalso. apply N1. apply in_combine_l in H1. apply in_map with (f := fst) in H1. exact H1.
        - eapply IH; eauto. }
      subst w'. apply (HW _ _ _ st1 sp1 (VI32 1 :: w) eq_refl). constructor; [eapply moved_more; [eapply moved_ls; [exact HM1|exact Hkp]|lia]| | |reflexivity].
      * cbn [rep]. eexists. split; [reflexivity|exact W2].
      * cbn [has_type]. eapply fields_typed_assoc; eauto.
  - destruct v; cbn [has_type] in Ht; try contradiction. change (fields_typed ts fs) in Ht. rewrite rep_tuple in Hr.
    unfold of_opt in Hm1. destruct (assoc k fs) as [x|] eqn:Ex; [|discriminate]. injection Hm1 as <-.
    destruct (rep_fields_split _ _ _ _ _ Hr) as (wss & -> & Hl & Hf).
    eapply (get_words k (field_ty k ts) ts); [exact En|eapply lext_wf; eauto|exact Xa|exact HLs|exact Hnd|exact Hin|exact Hl|reflexivity|].
    intros ls' w Hkp Hwi. destruct (Hf _ _ _ Hnd Hin Ex) as (w' & W1 & W2).
    assert (w' = w). { revert Hwi W1. generalize (field_ty k ts). intros t0 Hwi W1. clear - Hwi W1 Hnd. revert wss Hwi W1. induction ts as [|[k1 t1] ts IH]; intros [|w1 wss] H1 H2; cbn [combine] in *; try contradiction. cbn [map fst] in Hnd. inversion Hnd as [|? ? N1 N2]; subst.
      destruct H1 as [H1|H1], H2 as [H2|H2]; try congruence.
      - injection H1 as -> _ ->. exfalso. apply N1. apply in_combine_l in H2. apply in_map with (f := fst) in H2. exact H2.
      - injection H2 as -> _ ->. exfalso. apply N1. apply in_combine_l in H1. apply in_map with (f := fst) in H1. exact H1.
      - eapply IH; eauto. }
    subst w'. apply (HW _ _ _ st1 sp1 w eq_refl). constructor; [eapply moved_more; [eapply moved_ls; [exact HM1|exact Hkp]|lia]|exact W2| |reflexivity].
    eapply fields_typed_assoc; eauto.
Qed.
(** ** [tuple] *)
Definition stored (ts : list (string * ty)) (m : mem) (P : Z -> Prop) (ls : list val) (mp : list (string * list nat)) (vs : list (string * value)) : Prop :=
  Forall2 (fun x y => fst x = fst y /\ has_type (field_ty (fst x) ts) (snd y) /\ exists ws, lvals ls (snd x) ws /\ rep m P (field_ty (fst x) ts) (snd y) ws) mp vs.
Lemma stored_assoc ts m P ls mp vs k v : stored ts m P ls mp vs -> assoc k vs = Some v ->
  has_type (field_ty k ts) v /\ exists ws, lvals ls (bound_to k mp) ws /\ rep m P (field_ty k ts) v ws.
Proof.
  unfold bound_to. induction 1 as [|[x is] [y u] mp vs H HF IH]; intros Ha; [discriminate|]. cbn [fst snd] in H. destruct H as (-> & H1 & H2). cbn [assoc] in *.
  destruct (String.eqb_spec y k) as [->|]; [injection Ha as <-; split; [exact H1|exact H2]|auto].
Qed.

Definition tsubs (fs : list (string * sub (HS := HS))) : list (string * frag) := map (fun f => (fst f, s_c (snd f))) fs.
Definition teval (fs : list (string * sub (HS := HS))) (r : venv) : list (M HS (string * value)) := map (fun f => bind (s_m (snd f) r) (fun v => ret (fst f, v))) fs.
Lemma tuple_ext G ts fs : forall d B l cs mp l', tuple_fields ts (tsubs fs) d B l = (cs, mp, l') -> Forall (fun f => sub_ok G (snd f)) fs -> lwf l -> lext l l'.
Proof.
  induction fs as [|[k s] fs IH]; intros d B l cs mp l' H Hs Hw; cbn [tsubs map tuple_fields fst snd] in H.
  - injection H as <- <- <-. apply lext_refl; auto.
  - fold (tsubs fs) in H. destruct (s_c s d B l) as [c l1] eqn:Ec. destruct (save_to_locals (field_ty k ts) l1) as [[is cs0] l2] eqn:Es. destruct (tuple_fields ts (tsubs fs) d B l2) as [[cr mr] l3] eqn:Er. injection H as <- <- <-.
    inversion Hs as [|? ? H1 H2]; subst. cbn [snd] in H1. unfold LangCtl.sub_ok in H1. ext_of H1 Ec Xc. destruct (save_ok E _ _ _ _ _ Es (lext_wf _ _ Xc)) as (Xs & _).
    eapply lext_trans; [exact Xc|]. eapply lext_trans; [exact Xs|]. eapply IH; [exact Er|exact H2|eapply lext_wf; eauto].
Qed.

Lemma tuple_run {A} G B r F l ls st sp n d Q (rs : res HS A) ts : ctx G B r F l ls st sp n -> exits rt d F l ls st sp n Q rs ->
  forall fs l1 cs mp l2, tuple_fields ts (tsubs fs) d B l1 = (cs, mp, l2) -> Forall (fun f => sub_ok G (snd f)) fs -> Forall (fun f => s_t (snd f) = field_ty (fst f) ts) fs -> lext l l1 -> (llen l2 <= length ls)%nat ->
  forall ls1 st1 sp1 n1, moved l ls st sp n1 ls1 st1 sp1 -> n1 + sfr (map snd fs) <= n ->
  forall (f : list (string * value) -> M HS A) js k, bind (mapM (teval fs r)) f (shost st1) = Some rs ->
    (forall vs ls2 st2 sp2, stored ts (smem st2) (vis F sp2) ls2 mp vs ->
       moved l1 ls1 st1 sp1 (sfr (map snd fs)) ls2 st2 sp2 ->
       moved l ls st sp (n1 + sfr (map snd fs)) ls2 st2 sp2 -> f vs (shost st2) = Some rs -> wp js (mkcfg ls2 k st2) Q) ->
    wp (cs ++ js) (mkcfg ls1 k st1) Q.
Proof.
  intros HC HX. induction fs as [|[x s] fs IH]; intros l1 cs mp l2 H Hs Hty Xl HL ls1 st1 sp1 n1 HM Hn f js k Hm HW.
  - cbn in H. injection H as <- <- <-. cbn in Hm. cbn [app map sfr fold_right] in *. apply (HW [] ls1 st1 sp1); [constructor| | |exact Hm].
    + eapply moved_refl. eapply ctx_moved with (n' := 0); [exact HC|exact Xl|exact HM|lia].
    + rewrite Z.add_0_r. exact HM.
  - cbn [tsubs map tuple_fields fst snd] in H. fold (tsubs fs) in H. destruct (s_c s d B l1) as [c l3] eqn:Ec. destruct (save_to_locals (field_ty x ts) l3) as [[is cs0] l4] eqn:Es.
    destruct (tuple_fields ts (tsubs fs) d B l4) as [[cr mr] l5] eqn:Er. injection H as <- <- <-.
    inversion Hs as [|? ? H1 H2]; subst. inversion Hty as [|? ? T1 T2]; subst. cbn [fst snd] in H1, T1. unfold LangCtl.sub_ok in H1. rewrite T1 in H1.
    ext_of H1 Ec Xc. assert (X3 : lext l l3) by (eapply lext_trans; eauto). destruct (save_ok E _ _ _ _ _ Es (lext_wf _ _ Xc)) as (Xs & Hlv & Hln & Hrun).
    assert (X14 : lext l1 l4) by (eapply lext_trans; eauto). assert (X4 : lext l l4) by (eapply lext_trans; eauto).
    pose proof (tuple_ext _ _ _ _ _ _ _ _ _ Er H2 (lext_wf _ _ Xs)) as Xd. fr_of H1.
    assert (P2 : 0 <= sfr (map snd fs)). { eapply (sfr_nonneg E rt L X G). clear - H2. induction H2; constructor; auto. }
    cbn [map snd sfr fold_right] in Hn, HW. fold (sfr (map snd fs)) in Hn, HW. rewrite <- !app_assoc. cbn [teval map mapM fst snd] in Hm. fold (teval fs r) in Hm. rewrite !bind_assoc in Hm.
    eapply (impl_next _ _ _ _ _ _ _ _ _ _ H1 Ec);
        [exact HC|exact HM|lia|exact Xl|eapply ctx_moved; [exact HC|exact Xl|exact HM|lia]|exact Hm|exact HX|lenl|].
    intros v h ls2 st2 sp2 ws HG HM2 Hm2 HL2. cbv beta in Hm2. unfold bind at 1, ret at 1 in Hm2. rewrite bind_assoc in Hm2.
    eapply Hrun; [exact HL2|lenl|]. intros ls3 HK HV.
    assert (HM3 : moved l1 ls1 st1 sp1 (s_fr s) ls3 st2 sp2) by (eapply moved_ls'; [apply HG|exact Xc|exact HK]).
    assert (HM3' : moved l ls st sp (n1 + s_fr s) ls3 st2 sp2) by (eapply moved_ls'; [exact HM2|exact X3|exact HK]).
    eapply (IH l4 cr mr l5 Er H2 T2 X4 HL ls3 st2 sp2 (n1 + s_fr s) HM3' ltac:(lia) _ js k Hm2).
    intros vs ls4 st4 sp4 Hst HM4 HM5 Hf.
    apply (HW ((x, v) :: vs) ls4 st4 sp4).
    + constructor; [|exact Hst]. cbn [fst snd]. split; [reflexivity|]. split; [apply HG|]. exists ws. split.
      * eapply lvals_keep; [apply (m_ls _ _ _ _ _ _ _ _ HM4)|exact Hlv|exact HV].
      * eapply rep_moved; [exact HM4|apply HG].
    + eapply moved_trans; [exact X14|exact HM3|exact HM4].
    + rewrite Z.add_assoc. exact HM5.
    + exact Hf.
Qed.

Lemma tuple_ok G ts fs : ty_ok (TTuple ts) -> Forall (fun f => sub_ok G (snd f)) fs -> Forall (fun f => s_t (snd f) = field_ty (fst f) ts) fs ->
  impl G (TTuple ts) (sfr (map snd fs)) (e_tuple ts (tsubs fs))
    (fun r => bind (mapM (teval fs r)) (fun vs => of_opt (option_map CTuple (fold_right (fun f o => match assoc (fst f) vs, o with
                                                        | Some v, Some l => Some ((fst f, v) :: l)
                                                        | _, _ => None end) (Some []) ts)))).
Proof.
  intros Hok Hs Hty. assert (P2 : 0 <= sfr (map snd fs)). { eapply (sfr_nonneg E rt L X G). clear - Hs. induction Hs; constructor; auto. }
  rewrite ty_ok_tuple in Hok. destruct Hok as (_ & Hnd & _).
  split; [lia|]. intros d B l code l' HC Hw. unfold e_tuple in HC. destruct (tuple_fields ts (tsubs fs) d B l) as [[c mp] l1] eqn:Et. injection HC as <- <-.
  pose proof (tuple_ext _ _ _ _ _ _ _ _ _ Et Hs Hw) as Xt. split; [exact Xt|].
  intros F r js ls k st sp Q rs Hm HC HL HX HW. rewrite <- !app_assoc.
  eapply (tuple_run G B r F l ls st sp _ d Q rs ts HC HX fs l c mp l1 Et Hs Hty); [apply lext_refl; exact Hw|exact HL|eapply moved_refl; exact HC|lia|exact Hm|].
  intros vs ls2 st2 sp2 Hst _ HM Hf. rewrite Z.add_0_l in HM. cbv beta in Hf.
  destruct (fold_right _ _ _) as [lv|] eqn:Efold; [|discriminate]. cbn in Hf. injection Hf as <-.
  rewrite (flat_map_concat_map _ ts), <- (map_map (fun f => bound_to (fst f) mp) push_locals), <- flat_map_concat_map.
  eapply (push_fields (smem st2) (vis F sp2) _ _ _ _ ts _ lv).
  - assert (Hin : forall k t, In (k, t) ts -> field_ty k ts = t) by (intros k0 t0 Hi; rewrite field_ty_assoc, (in_assoc _ _ _ Hnd Hi); reflexivity).
    assert (Hgen : forall ts' lv, fold_right (fun (f : string * ty) o => match assoc (fst f) vs, o with Some v, Some l => Some ((fst f, v) :: l) | _, _ => None end) (Some []) ts' = Some lv ->
      (forall k t, In (k, t) ts' -> field_ty k ts = t) -> at_locals (smem st2) (vis F sp2) ls2 ts' (map (fun f => bound_to (fst f) mp) ts') lv); [|exact (Hgen ts lv Efold Hin)].
    clear - Hst. induction ts' as [|[x t] ts' IH]; intros lv Ef Hin; cbn [fold_right fst] in Ef.
    + injection Ef as <-. exact I.
    + destruct (assoc x vs) as [v|] eqn:Ea; [|discriminate]. destruct (fold_right _ _ ts') as [l0|]; [|discriminate]. injection Ef as <-.
      cbn [map at_locals fst]. split; [|apply IH; [reflexivity|intros; apply Hin; right; assumption]].
      destruct (stored_assoc _ _ _ _ _ _ _ _ Hst Ea) as (H1 & H2). rewrite (Hin x t (or_introl eq_refl)) in H1, H2. split; [reflexivity|]. split; [exact H1|exact H2].
  - intros ws Hr Ht. apply (HW _ _ ls2 st2 sp2 ws eq_refl). constructor; [exact HM|exact Hr|exact Ht|reflexivity].
Qed.
Lemma has_key_in k ts : has_key k ts = true -> In (k, field_ty k ts) ts.
Proof. unfold has_key. rewrite field_ty_assoc. destruct (assoc k ts) eqn:Ek; [|discriminate]. intros _. apply assoc_in. exact Ek. Qed.
Lemma in_has_key k t ts : In (k, t) ts -> has_key k ts = true.
Proof. unfold has_key. induction ts as [|[x u] ts IH]; [intros []|]. cbn [assoc]. destruct (String.eqb_spec x k); [reflexivity|]. intros [H|H]; [congruence|auto]. Qed.

Lemma merge_ok G ts ta tb fa fb a b ma mb : ty_ok (TTuple ts) -> ty_ok (TTuple ta) -> ty_ok (TTuple tb) ->
  (forall k t, In (k, t) ta -> has_key k ts = true) -> (forall k t, In (k, t) tb -> has_key k ts = true) ->
  (forall k t, In (k, t) ts -> if has_key k tb then widens (field_ty k tb) t = true else has_key k ta = true /\ widens (field_ty k ta) t = true) ->
  impl G (TTuple ta) fa a ma -> impl G (TTuple tb) fb b mb ->
  impl G (TTuple ts) (fa + fb) (e_merge ts ta tb a b)
    (fun r => bind (ma r) (fun v => bind (mb r) (fun w =>
      match v, w with
      | CTuple f1, CTuple f2 =>
          of_opt (option_map CTuple (fold_right (fun f o =>
            match (match assoc (fst f) f2 with Some x => Some x | None => assoc (fst f) f1 end), o with
            | Some x, Some l => Some ((fst f, x) :: l)
            | _, _ => None end) (Some []) ts))
      | _, _ => bad
      end))).
Proof.
  intros Hs1 Hs2 Hs3 Ka Kb Kt HA HB. fr_of HA. fr_of HB. split; [lia|]. rewrite ty_ok_tuple in Hs1, Hs2, Hs3. destruct Hs1 as (_ & Nts & _), Hs2 as (_ & Nta & _), Hs3 as (_ & Ntb & _).
  intros d B l code l' HC Hw. unfold e_merge in HC. destruct (merge_locals ts l) as [mp l1] eqn:Em. destruct (a d B l1) as [ca l2] eqn:Ea. destruct (b d B l2) as [cb l3] eqn:Eb. injection HC as <- <-.
  destruct (merge_locals_ok _ _ _ _ Em Hw) as (Xm & M1 & M2 & M3 & M4). ext_of HA Ea Xa. ext_of HB Eb Xb.
  assert (X02 : lext l l2) by (eapply lext_trans; eauto). assert (X13 : lext l1 l3) by (eapply lext_trans; eauto). split; [eapply lext_trans; eauto|].
  assert (Nm : NoDup (map fst mp)) by (rewrite M1; exact Nts).
  assert (Hlen : forall k t, In (k, t) ts -> length (bound_to k mp) = length (clar2wasm_ty t)).
  { clear - M1 M2 Nm Nts. intros k t Hin. unfold bound_to. revert M1 Nm Nts Hin. induction M2 as [|[x u] [y is] ts mp Hx M2 IH]; [intros _ _ _ []|]. cbn [map fst snd] in *.
    intros M1 Nm Nts Hin. injection M1 as -> M1. inversion Nm; subst. inversion Nts; subst. cbn [assoc]. destruct Hin as [Hin|Hin].
    - injection Hin as -> ->. rewrite String.eqb_refl. exact Hx.
    - destruct (String.eqb_spec x k) as [->|]; [exfalso; apply in_map with (f := fst) in Hin; contradiction|]. apply IH; auto. }
  assert (Hlive : forall k, Forall (live l1) (bound_to k mp)).
  { intros k. apply Forall_forall. intros i Hi. destruct (bound_in _ _ _ Hi) as (is & I1 & I2). rewrite I2 in Hi. rewrite Forall_forall in M3. destruct (M3 _ I1) as (I3 & _). rewrite Forall_forall in I3. exact (I3 _ Hi). }
  assert (Hfresh : forall k i, In i (bound_to k mp) -> ~ live l i).
  { intros k i Hi. destruct (bound_in _ _ _ Hi) as (is & I1 & I2). rewrite I2 in Hi. rewrite Forall_forall in M3. destruct (M3 _ I1) as (_ & I3). rewrite Forall_forall in I3. exact (I3 _ Hi). }
  intros F r js ls kk st sp Q rs Hm HC HL HX HW. rewrite <- !app_assoc.
  assert (Hbd : forall k (lz : list val), length lz = length ls -> Forall (fun i => (i < length lz)%nat) (bound_to k mp)).
  { intros k lz Hz. eapply Forall_impl; [|exact (Hlive k)]. intros i (Hi & _). apply lext_len in X13. lia. }
  eapply (impl_next _ _ _ _ _ _ _ _ _ _ HA Ea);
    [exact HC|eapply moved_refl; eauto|lia|exact Xm|eapply ctx_moved; [exact HC|exact Xm|eapply moved_refl; eauto|lia]|exact Hm|exact HX|lenl|].
  intros v h1 ls1 st1 sp1 ws HG HM1 Hm1 HL1. cbv beta in Hm1.
  pose proof (g_type _ _ _ _ _ _ _ _ _ _ _ _ _ HG) as Tv. pose proof (g_rep _ _ _ _ _ _ _ _ _ _ _ _ _ HG) as Rv.
  destruct v; cbn [has_type] in Tv; try contradiction. change (fields_typed ta fs) in Tv. rewrite rep_tuple in Rv. rename fs into f1.
  destruct (rep_fields_split _ _ _ _ _ Rv) as (wss1 & -> & W1 & W2).
  assert (HLn1 : length ls1 = length ls) by (apply lkeep_len with (l := l); apply HM1).
  rewrite (flat_map_ext _ (fun f => if negb (has_key (fst f) tb) then map LSet (rev (bound_to (fst f) mp)) else drop_value (snd f))).
  2:{ intros f. destruct (has_key (fst f) tb); reflexivity. }
  eapply (store_fields (fun x => negb (has_key x tb))); [exact W1|exact Nta| |intros k; apply bound_nodup; exact M4|intros k; apply Hbd; exact HLn1|intros k k' i Hk; apply bound_disj; assumption|].
  { intros k t Hin Hsel. pose proof (Ka _ _ Hin) as Hk. pose proof (has_key_in _ _ Hk) as Hk2. rewrite (Hlen _ _ Hk2). specialize (Kt _ _ Hk2). cbv beta in Hsel. destruct (has_key k tb); [discriminate|].
    destruct Kt as (_ & Kt). rewrite (widens_wasm _ _ Kt). rewrite field_ty_assoc, (in_assoc _ _ _ Nta Hin). reflexivity. }
  intros ls2 L2 O2 V2.
  assert (HM2 : moved l ls st sp fa ls2 st1 sp1).
  { eapply moved_more; [eapply moved_ls; [exact HM1|]|lia]. split; [exact L2|]. intros i Hi. apply O2. intros k t _ _ Hin. exact (Hfresh _ _ Hin Hi). }
  eapply (impl_next _ _ _ _ _ _ _ _ _ _ HB Eb);
    [exact HC|exact HM2|lia|exact X02|eapply ctx_moved; [exact HC|exact X02|exact HM2|lia]|exact Hm1|exact HX|lenl|].
  intros w h2 ls3 st3 sp3 ws3 HG3 HM3 Hm3 HL3. cbv beta in Hm3.
  assert (HMb : moved l2 ls2 st1 sp1 fb ls3 st3 sp3) by apply HG3.
  pose proof (g_type _ _ _ _ _ _ _ _ _ _ _ _ _ HG3) as Tw. pose proof (g_rep _ _ _ _ _ _ _ _ _ _ _ _ _ HG3) as Rw.
  destruct w; cbn [has_type] in Tw; try contradiction. change (fields_typed tb fs) in Tw. rewrite rep_tuple in Rw. rename fs into f2.
  destruct (rep_fields_split _ _ _ _ _ Rw) as (wss2 & -> & W3 & W4).
  assert (HLn3 : length ls3 = length ls) by (apply lkeep_len with (l := l); apply HM3).
  eapply (store_fields (fun x => true)); [exact W3|exact Ntb| |intros k; apply bound_nodup; exact M4|intros k; apply Hbd; exact HLn3|intros k k' i Hk; apply bound_disj; assumption|].
  { intros k t Hin _. pose proof (Kb _ _ Hin) as Hk. pose proof (has_key_in _ _ Hk) as Hk2. rewrite (Hlen _ _ Hk2). specialize (Kt _ _ Hk2). rewrite (in_has_key _ _ _ Hin) in Kt.
    rewrite (widens_wasm _ _ Kt). rewrite field_ty_assoc, (in_assoc _ _ _ Ntb Hin). reflexivity. }
  intros ls4 L4 O4 V4.
  assert (HM4 : moved l ls st sp (fa + fb) ls4 st3 sp3).
  { eapply moved_more; [eapply moved_ls; [exact HM3|]|lia]. split; [exact L4|]. intros i Hi. apply O4. intros k t _ _ Hin. exact (Hfresh _ _ Hin Hi). }
  destruct (fold_right _ _ _) as [lv|] eqn:Efold in Hm3; [|discriminate]. cbn in Hm3. injection Hm3 as <-.
  rewrite (flat_map_concat_map _ mp), <- (map_map snd push_locals), <- flat_map_concat_map, (bound_map _ Nm), M1.
  eapply (push_fields (smem st3) (vis F sp3) _ _ _ _ ts _ lv).
  - assert (Hgen : forall ts' lv, fold_right (fun (f : string * ty) o => match (match assoc (fst f) f2 with Some x => Some x | None => assoc (fst f) f1 end), o with
        | Some x, Some l => Some ((fst f, x) :: l) | _, _ => None end) (Some []) ts' = Some lv ->
      (forall k t, In (k, t) ts' -> In (k, t) ts) -> at_locals (smem st3) (vis F sp3) ls4 ts' (map (fun k => bound_to k mp) (map fst ts')) lv); [|exact (Hgen ts lv Efold (fun _ _ H => H))].
    clear Hm Hm1 lv Efold HW HX. induction ts' as [|[x t] ts' IH]; intros lv Ef Hin; cbn [fold_right fst] in Ef; [injection Ef as <-; exact I|].
    destruct (match assoc x f2 with Some y => Some y | None => assoc x f1 end) as [y|] eqn:Ey; [|discriminate]. destruct (fold_right _ _ ts') as [l0|]; [|discriminate]. injection Ef as <-.
    cbn [map at_locals fst]. split; [|apply IH; [reflexivity|intros; apply Hin; right; assumption]]. split; [reflexivity|].
    specialize (Kt _ _ (Hin x t (or_introl eq_refl))). destruct (assoc x f2) as [y2|] eqn:E2.
    + injection Ey as ->. pose proof (split_typed _ _ _ _ Tw E2) as Hi2. rewrite (in_has_key _ _ _ Hi2) in Kt.
      destruct (W4 _ _ _ Ntb Hi2 E2) as (w & Wi & Wr). split; [eapply widens_has_type; [exact Kt|eapply (fields_typed_assoc tb f2 x); [exact Tw|exact Ntb|exact Hi2|exact E2]]|].
      exists w. split; [exact (V4 _ _ _ Wi eq_refl)|eapply widens_rep; [exact Kt|exact Wr]].
    + pose proof (split_typed _ _ _ _ Tv Ey) as Hi1. assert (Hk : has_key x tb = false).
      { unfold has_key. destruct (assoc x tb) eqn:Etb; [|reflexivity]. destruct (proj2 (fields_typed_key _ _ x Tw) (ex_intro _ _ Etb)) as (z & Hz). congruence. }
      rewrite Hk in Kt. destruct Kt as (_ & Kt). destruct (W2 _ _ _ Nta Hi1 Ey) as (w & Wi & Wr). split; [eapply widens_has_type; [exact Kt|eapply (fields_typed_assoc ta f1 x); [exact Tv|exact Nta|exact Hi1|exact Ey]]|].
      exists w. split; [|eapply widens_rep; [exact Kt|eapply rep_moved; [exact HMb|exact Wr]]].
      assert (V2' := V2 _ _ _ Wi). cbv beta in V2'. rewrite Hk in V2'. specialize (V2' eq_refl).
      assert (V3 : lvals ls3 (bound_to x mp) w) by (eapply lvals_keep; [apply (m_ls _ _ _ _ _ _ _ _ HMb)|eapply live_all; [exact Xa|apply Hlive]|exact V2']).
      assert (Hx : forall i, In i (bound_to x mp) -> nth_error ls4 i = nth_error ls3 i).
      { intros i Hi. apply O4. intros k1 t1 K1 _. apply (bound_disj x k1 i mp M4); [|exact Hi]. intros ->. rewrite (in_has_key _ _ _ K1) in Hk. discriminate. }
      clear - V3 Hx. unfold lvals in *. induction V3 as [|i u is us Hi V3 IH]; constructor; [rewrite Hx by (left; reflexivity); exact Hi|apply IH; intros j Hj; apply Hx; right; exact Hj].
  - intros ws Hr Ht. apply (HW _ _ ls4 st3 sp3 ws eq_refl). constructor; [exact HM4|exact Hr|exact Ht|reflexivity].
Qed.
End Tup.
