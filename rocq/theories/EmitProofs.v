(** * Generated stores and loads (proof support) *)
From Coq Require Import ZArith String List Bool Lia.
Import ListNotations.
From Verif Require Import Wasm Std StdEnv WasmLogic WasmTac Spec Mem MemFacts Bytes SpecBytes Clar Codec Rep RepFacts Emit CallProofs EmitFacts.
Open Scope Z_scope.

(** the words of a value with the placeholders of [NoType] positions set to 0 *)
Fixpoint blank (t : ty) (ws : list val) {struct t} : list val :=
  match t with
  | TNo => [VI32 0]
  | TOpt t' => firstn 1 ws ++ blank t' (skipn 1 ws)
  | TResp t' e =>
      let n := length (clar2wasm_ty t') in
      firstn 1 ws ++ blank t' (firstn n (skipn 1 ws)) ++ blank e (skipn n (skipn 1 ws))
  | TTuple fs =>
      (fix go (fs : list (string * ty)) (ws : list val) {struct fs} : list val :=
         match fs with
         | [] => []
         | (_, t') :: fs =>
             let n := length (clar2wasm_ty t') in blank t' (firstn n ws) ++ go fs (skipn n ws)
         end) fs ws
  | _ => ws
  end.
Definition blank_fields : list (string * ty) -> list val -> list val :=
  fix go fs ws {struct fs} :=
    match fs with
    | [] => []
    | (_, t') :: fs => let n := length (clar2wasm_ty t') in blank t' (firstn n ws) ++ go fs (skipn n ws)
    end.
Definition write_fields_code (ol : nat) : list (string * ty) -> Z -> lst -> list instr * lst :=
  fix go fs off l {struct fs} :=
    match fs with
    | [] => ([], l)
    | (_, t') :: fs =>
        let '(c2, l) := go fs (off + get_type_size t') l in
        let '(c1, l) := write_to_memory t' ol off l in
        (c2 ++ c1, l)
    end.
Definition read_fields_code (ol : nat) : list (string * ty) -> Z -> list instr :=
  fix go fs off {struct fs} :=
    match fs with
    | [] => []
    | (_, t') :: fs => read_from_memory t' ol off ++ go fs (off + get_type_size t')
    end.

Lemma F2_firstn {A B} (R : A -> B -> Prop) a b ws : Forall2 R (a ++ b) ws ->
  Forall2 R a (firstn (length a) ws) /\ Forall2 R b (skipn (length a) ws) /\ ws = firstn (length a) ws ++ skipn (length a) ws.
Proof.
  revert ws. induction a as [|x a IH]; intros ws H; cbn.
  - repeat split; auto.
  - inversion H; subst. destruct (IH _ H4) as (X1 & X2 & X3). split; [constructor; auto|]. split; [auto|]. cbn [app]; f_equal; exact X3.
Qed.

Lemma blank_typed t : forall ws, Forall2 wtyped (clar2wasm_ty t) ws -> Forall2 wtyped (clar2wasm_ty t) (blank t ws).
Proof.
  induction t using ty_ind'; intros ws Hw; cbn [blank clar2wasm_ty] in *; auto.
  - constructor; [cbn; lia|constructor].
  - inversion Hw; subst. cbn. constructor; auto.
  - inversion Hw; subst. cbn [firstn skipn app]. destruct (F2_firstn _ _ _ _ H3) as (H5 & H6 & _).
    constructor; auto. apply Forall2_app; auto.
  - change (Forall2 wtyped (flat_map (fun f => clar2wasm_ty (snd f)) fs) (blank_fields fs ws)).
    revert ws Hw. induction H as [|[k t] fs Ht H IH]; intros ws Hw; [constructor|].
    cbn [flat_map snd blank_fields] in *. destruct (F2_firstn _ _ _ _ Hw) as (H5 & H6 & _). apply Forall2_app; auto.
Qed.

Lemma blank_rep m P t : forall v ws, rep m P t v ws -> rep m P t v (blank t ws).
Proof.
  induction t using ty_ind'; intros v ws Hr; destruct v; cbn [rep blank] in *; try contradiction; auto.
  - destruct Hr as (ws' & -> & Hr). exists (blank t ws'). split; [reflexivity|]. apply blank_typed; auto.
  - destruct Hr as (ws' & -> & Hr). exists (blank t ws'). split; [reflexivity|]. auto.
  - destruct Hr as (ws1 & ws2 & -> & H1 & H2). cbn [firstn skipn app].
    assert (HL : length (clar2wasm_ty t1) = length ws1) by (eapply F2_len, rep_typed; eauto).
    rewrite HL, firstn_app, Nat.sub_diag, firstn_all, firstn_O, app_nil_r, skipn_app, Nat.sub_diag, skipn_all, skipn_O.
    exists (blank t1 ws1), (blank t2 ws2). split; [reflexivity|]. split; auto. apply blank_typed; auto.
  - destruct Hr as (ws1 & ws2 & -> & H1 & H2). cbn [firstn skipn app].
    assert (HL : length (clar2wasm_ty t1) = length ws1) by (eapply F2_len; eauto).
    rewrite HL, firstn_app, Nat.sub_diag, firstn_all, firstn_O, app_nil_r, skipn_app, Nat.sub_diag, skipn_all, skipn_O.
    exists (blank t1 ws1), (blank t2 ws2). split; [reflexivity|]. split; auto. apply blank_typed; auto.
  - change (rep_fields m P fs fs0 (blank_fields fs ws)). change (rep_fields m P fs fs0 ws) in Hr. revert fs0 ws Hr.
    induction H as [|[k t] fs Ht H IH]; intros vs ws Hr; destruct vs as [|[k' v'] vs]; cbn [rep_fields blank_fields] in *; auto; try contradiction.
    destruct Hr as (ws1 & ws2 & -> & -> & H1 & H2).
    assert (HL : length (clar2wasm_ty t) = length ws1) by (eapply F2_len, rep_typed; eauto).
    rewrite HL, firstn_app, Nat.sub_diag, firstn_all, firstn_O, app_nil_r, skipn_app, Nat.sub_diag, skipn_all, skipn_O.
    exists (blank t ws1), (blank_fields fs ws2). repeat split; auto.
Qed.

(** values without an unknown type are untouched *)
Fixpoint no_unknown (t : ty) : Prop :=
  match t with
  | TNo => False
  | TOpt t => no_unknown t
  | TResp t e => no_unknown t /\ no_unknown e
  | TTuple fs => (fix go (fs : list (string * ty)) : Prop := match fs with [] => True | (_, t) :: fs => no_unknown t /\ go fs end) fs
  | _ => True
  end.
Lemma blank_id t : no_unknown t -> forall ws, Forall2 wtyped (clar2wasm_ty t) ws -> blank t ws = ws.
Proof.
  induction t using ty_ind'; intros Hn ws Hw; cbn [blank clar2wasm_ty no_unknown] in *; auto; try contradiction.
  - inversion Hw; subst. cbn. rewrite IHt; auto.
  - inversion Hw; subst. cbn [firstn skipn app]. destruct (F2_firstn _ _ _ _ H3) as (H5 & H6 & H7). destruct Hn.
    rewrite IHt1, IHt2; auto. f_equal. symmetry; exact H7.
  - change (blank_fields fs ws = ws). revert Hn ws Hw. induction H as [|[k t] fs Ht H IH]; intros Hn ws Hw.
    + inversion Hw; reflexivity.
    + cbn [flat_map snd blank_fields] in *. destruct Hn as (Hn1 & Hn2). destruct (F2_firstn _ _ _ _ Hw) as (H5 & H6 & H7).
      rewrite Ht, IH; auto.
Qed.

(** ** Stores *)
Section Code.
Context {HS : Type} (E : env HS).
Notation wp := (wp E).

Definition stores (t : ty) (c : list instr) (l l' : lst) (ol : nat) (off : Z) : Prop :=
  lext l l' /\
  forall js ls k (st : store HS) a ws Q, nth_error ls ol = Some (VI32 a) -> (llen l' <= length ls)%nat ->
    Forall2 wtyped (clar2wasm_ty t) ws -> 0 <= a -> 0 <= off -> a + off + get_type_size t <= msize (smem st) <= m32 ->
    (forall ls' m', lkeep l ls ls' -> only_changes (smem st) m' (a + off) (get_type_size t) ->
       words_at m' (a + off) (blank t ws) -> wp js (mkcfg ls' k (with_mem st m')) Q) ->
    wp (c ++ js) (mkcfg ls (rev ws ++ k) st) Q.

Lemma wp_store_at kd off js ls k (st : store HS) v z ol a Q i :
  nth_error ls ol = Some (VI32 a) -> nth_error ls i = Some v -> stval kd v = Some z ->
  a + off + Z.of_nat (stbytes kd) <= msize (smem st) ->
  wp js (mkcfg ls k (with_mem st (stn (smem st) (a + off) (stbytes kd) z))) Q ->
  wp (LGet ol :: LGet i :: Store kd off :: js) (mkcfg ls k st) Q.
Proof.
  intros H1 H2 H3 H4 H5. eapply wp_lget; [exact H1|]. eapply wp_lget; [exact H2|]. eapply wp_store; eauto.
Qed.

Lemma holds_stn m a n v : 0 <= a -> a + Z.of_nat n <= msize m <= m32 -> holds (stn m a n v) a (le_bytes n v).
Proof.
  intros Ha Hb. unfold holds. rewrite msize_stn, len_le_bytes, bytes_at_stn_le. repeat split; auto; lia.
Qed.

(** a 32-bit word (a tag or a boolean) *)
Lemma store_word off js ls k (st : store HS) z ol a Q l i l' :
  nth_error ls ol = Some (VI32 a) -> live l ol -> lwf l -> add_local T32 l = (i, l') -> (llen l' <= length ls)%nat ->
  0 <= a -> 0 <= off -> a + off + 4 <= msize (smem st) <= m32 ->
  (forall ls' m', lkeep l ls ls' -> only_changes (smem st) m' (a + off) 4 ->
       holds m' (a + off) (le_bytes 4 z) -> wp js (mkcfg ls' k (with_mem st m')) Q) ->
  wp (LSet i :: LGet ol :: LGet i :: Store S32 off :: js) (mkcfg ls (VI32 z :: k) st) Q.
Proof.
  intros H1 Hl Hw Ha Hn H2 H3 H4 HW. destruct (add_ok _ _ _ _ Ha Hw) as (A1 & A2 & A3).
  apply wp_lset. eapply wp_store_at with (i := i) (v := VI32 z) (a := a).
  - rewrite lset_other; auto. intros ->. auto.
  - apply lset_same. destruct A2. lia.
  - reflexivity.
  - cbn [stbytes]. lia.
  - apply HW; [apply lkeep_lset; auto|apply (only_stn _ _ 4)|apply holds_stn; cbn [stbytes]; lia].
Qed.

Lemma stores_pair t l c l' ol off : clar2wasm_ty t = [T32; T32] -> get_type_size t = 8 -> (forall ws, blank t ws = ws) ->
  lwf l -> live l ol ->
  (let '(so, l) := add_local T32 l in let '(sl, l) := add_local T32 l in
   ([LSet sl; LSet so; LGet ol; LGet so; Store S32 off; LGet ol; LGet sl; Store S32 (off + 4)], l)) = (c, l') ->
  stores t c l l' ol off.
Proof.
  intros Ht Hs Hb Hw Hl. destruct (add_local T32 l) as [so l1] eqn:E1. destruct (add_local T32 l1) as [sl l2] eqn:E2.
  intros H; injection H as <- <-. destruct (add_ok _ _ _ _ E1 Hw) as (A1 & A2 & A3).
  destruct (add_ok _ _ _ _ E2 (lext_wf _ _ A1)) as (B1 & B2 & B3). split; [eapply lext_trans; eauto|].
  intros js ls k st a ws Q Hol Hn Hws Ha Hoff Hbnd HW. rewrite Ht in Hws. rewrite Hs in *.
  inversion Hws as [|? w1 ? ws1 W1 Hws1]; subst. inversion Hws1 as [|? w2 ? ws2 W2 Hws2]; subst. inversion Hws2; subst.
  destruct w1 as [x| |]; try contradiction. destruct w2 as [y| |]; try contradiction.
  assert (D1 : sl <> so) by (intros ->; apply B3; exact A2).
  assert (D2 : ol <> so) by (intros ->; auto). assert (D3 : ol <> sl) by (intros ->; apply B3; eapply lext_live; eauto).
  assert (L1 : (so < length ls)%nat) by (destruct (lext_live _ _ _ B1 A2); lia). assert (L2 : (sl < length ls)%nat) by (destruct B2; lia).
  cbn [rev app]. apply wp_lset. apply wp_lset. 
  eapply wp_store_at with (i := so) (v := VI32 x) (a := a).
  { rewrite !lset_other; auto. } { apply lset_same. rewrite lset_len; auto. } { reflexivity. } { cbn [stbytes]; lia. }
  eapply wp_store_at with (i := sl) (v := VI32 y) (a := a).
  { rewrite !lset_other; auto. } { rewrite lset_other, lset_same; auto. } { reflexivity. } { cbn [stbytes with_mem smem]. rewrite msize_stn. lia. }
  cbn [stbytes with_mem smem]. rewrite with_mem_twice. rewrite Hb in HW. apply HW.
  - eapply lkeep_trans0; apply lkeep_lset; auto. intros HX. apply B3. eapply lext_live; eauto.
  - eapply only_trans; [eapply only_weaken; [apply only_stn| |]|eapply only_weaken; [apply only_stn| |]]; cbn; lia.
  - apply words_at_cons. cbn [word_bytes]. split.
    + eapply only_holds; [apply only_stn|rewrite len_le_bytes; lia|]. apply holds_stn; cbn; lia.
    + rewrite len_le_bytes. unfold words_at. cbn [words_bytes flat_map word_bytes]. rewrite app_nil_r.
      replace (a + off + Z.of_nat 4) with (a + (off + 4)) by lia. apply holds_stn; cbn; rewrite ?msize_stn; lia.
Qed.

Lemma stores_int t l c l' ol off : clar2wasm_ty t = [T64; T64] -> get_type_size t = 16 -> (forall ws, blank t ws = ws) ->
  lwf l -> live l ol ->
  (let '(high, l) := borrow T64 l in let '(low, l) := borrow T64 l in
   ([LSet high; LSet low; LGet ol; LGet low; Store S64 off; LGet ol; LGet high; Store S64 (off + 8)], release T64 high (release T64 low l))) = (c, l') ->
  stores t c l l' ol off.
Proof.
  intros Ht Hs Hb Hw Hl. destruct (borrow T64 l) as [so l1] eqn:E1. destruct (borrow T64 l1) as [sl l2] eqn:E2.
  intros H; injection H as <- <-. destruct (borrow_ok _ _ _ _ E1 Hw) as (A1 & A2 & A3).
  destruct (borrow_ok _ _ _ _ E2 (lext_wf _ _ A1)) as (B1 & B2 & B3).
  assert (D1 : sl <> so) by (intros ->; apply B3; exact A2).
  assert (LX : lext l (release T64 so (release T64 sl l2))).
  { apply release_ext; auto.
    - apply release_ext; auto; [eapply lext_trans; eauto|]. intros HX. apply B3. eapply lext_live; eauto.
    - apply release_live. split; [eapply lext_live; eauto|congruence]. }
  split; [exact LX|].
  intros js ls k st a ws Q Hol Hn Hws Ha Hoff Hbnd HW. rewrite Ht in Hws. rewrite Hs in *.
  assert (Hn2 : (llen l2 <= length ls)%nat) by exact Hn.
  inversion Hws as [|? w1 ? ws1 W1 Hws1]; subst. inversion Hws1 as [|? w2 ? ws2 W2 Hws2]; subst. inversion Hws2; subst.
  destruct w1 as [|x|]; try contradiction. destruct w2 as [|y|]; try contradiction.
  assert (D2 : ol <> so) by (intros ->; auto). assert (D3 : ol <> sl) by (intros ->; apply B3; eapply lext_live; eauto).
  assert (L1 : (so < length ls)%nat) by (destruct (lext_live _ _ _ B1 A2); lia). assert (L2 : (sl < length ls)%nat) by (destruct B2 as (B2 & _); lia).
  cbn [rev app]. apply wp_lset. apply wp_lset.
  eapply wp_store_at with (i := sl) (v := VI64 x) (a := a).
  { rewrite !lset_other; auto. } { apply lset_same. rewrite lset_len; auto. } { reflexivity. } { cbn; lia. }
  eapply wp_store_at with (i := so) (v := VI64 y) (a := a).
  { rewrite !lset_other; auto. } { rewrite lset_other, lset_same; auto. } { reflexivity. } { cbn [stbytes with_mem smem]. rewrite msize_stn. lia. }
  cbn [stbytes with_mem smem]. rewrite with_mem_twice. rewrite Hb in HW. apply HW.
  - eapply lkeep_trans0; apply lkeep_lset; auto. intros HX. apply B3. eapply lext_live; eauto.
  - eapply only_trans; [eapply only_weaken; [apply only_stn| |]|eapply only_weaken; [apply only_stn| |]]; cbn; lia.
  - apply words_at_cons. cbn [word_bytes]. split.
    + eapply only_holds; [apply only_stn|rewrite len_le_bytes; lia|]. apply holds_stn; cbn; lia.
    + rewrite len_le_bytes. unfold words_at. cbn [words_bytes flat_map word_bytes]. rewrite app_nil_r.
      replace (a + off + Z.of_nat 8) with (a + (off + 8)) by lia. apply holds_stn; cbn; rewrite ?msize_stn; lia.
Qed.

Lemma words_len_ty t ws : Forall2 wtyped (clar2wasm_ty t) ws -> Z.of_nat (length (words_bytes (blank t ws))) = get_type_size t.
Proof. intros H. rewrite (words_bytes_len _ _ (blank_typed _ _ H)). apply words_size_ty. Qed.

Lemma only_words m m' a n b ws : only_changes m m' a n -> b + Z.of_nat (length (words_bytes ws)) <= a \/ a + n <= b -> words_at m b ws -> words_at m' b ws.
Proof. intros H1 H2 H3. unfold words_at in *. eapply only_holds; eauto. Qed.

Lemma only_size m m' a n : only_changes m m' a n -> msize m' = msize m.
Proof. intros H; apply H. Qed.

Lemma write_memory_ok t : forall l ol off c l', write_to_memory t ol off l = (c, l') -> lwf l -> live l ol -> stores t c l l' ol off.
Proof.
  induction t using ty_ind'; intros l ol off c l' H0 Hw Hl.
  - (* no type *)
    cbn in H0. injection H0 as <- <-. split; [apply lext_refl; auto|].
    intros js ls k st a ws Q Hol Hn Hws Ha Hoff Hbnd HW. cbn [get_type_size clar2wasm_ty] in *. inversion Hws as [|? w1 ? ws1 W1 Hws1]; subst. inversion Hws1; subst.
    cbn [rev app]. apply wp_drop. eapply wp_lget; [exact Hol|]. apply wp_const.
    eapply wp_store; [reflexivity|cbn; lia|]. apply HW; [apply lkeep_refl|apply (only_stn _ _ 4)|].
    unfold words_at. cbn [blank words_bytes flat_map word_bytes]. rewrite app_nil_r. apply holds_stn; cbn; lia.
  - eapply stores_int; eauto.
  - eapply stores_int; eauto.
  - (* bool *)
    cbn [write_to_memory] in H0. destruct (add_local T32 l) as [b l1] eqn:E1. injection H0 as <- <-. split; [eapply add_ok; eauto|].
    intros js ls k st a ws Q Hol Hn Hws Ha Hoff Hbnd HW. cbn [get_type_size clar2wasm_ty blank] in *. inversion Hws as [|? w1 ? ws1 W1 Hws1]; subst. inversion Hws1; subst.
    destruct w1 as [z| |]; try contradiction. cbn [rev app]. eapply store_word; eauto.
  - eapply stores_pair; eauto.
  - eapply stores_pair; eauto.
  - eapply stores_pair; eauto.
  - eapply stores_pair; eauto.
  - eapply stores_pair; eauto.
  - eapply stores_pair; eauto.
  - (* optional *)
    cbn [write_to_memory] in H0. destruct (write_to_memory t ol (off + 4) l) as [c1 l1] eqn:E1.
    destruct (add_local T32 l1) as [v l2] eqn:E2. injection H0 as <- <-.
    destruct (IHt _ _ _ _ _ E1 Hw Hl) as (X1 & X2). destruct (add_ok _ _ _ _ E2 (lext_wf _ _ X1)) as (A1 & A2 & A3).
    split; [eapply lext_trans; eauto|].
    intros js ls k st a ws Q Hol Hn Hws Ha Hoff Hbnd HW. cbn [get_type_size clar2wasm_ty] in *. inversion Hws as [|? w1 ? ws1 W1 Hws1]; subst.
    destruct w1 as [z| |]; try contradiction. pose proof (size_nonneg t) as Hsz.
    cbn [rev]. rewrite <- !app_assoc. cbn [app].
    pose proof (lext_len _ _ A1).
    eapply X2; [exact Hol|lia|exact Hws1|exact Ha|lia|lia|]. intros ls1 m1 K1 K2 K3.
    eapply store_word with (l := l1); [rewrite (lkeep_get _ _ _ _ K1); eauto|eapply lext_live; eauto|apply X1|exact E2| | | |cbn [with_mem smem]; rewrite (only_size _ _ _ _ K2); lia|];
      [rewrite (lkeep_len _ _ _ K1); lia|lia|lia|].
    intros ls2 m2 K4 K5 K6. rewrite with_mem_twice. cbn [with_mem smem] in K5. apply HW.
    + eapply lkeep_trans; eauto.
    + eapply only_trans; [eapply only_weaken; [exact K2| |]|eapply only_weaken; [exact K5| |]]; lia.
    + cbn [blank firstn skipn app]. apply words_at_cons. cbn [word_bytes]. rewrite len_le_bytes. split; [exact K6|].
      eapply only_words; [exact K5|lia|]. replace (a + off + Z.of_nat 4) with (a + (off + 4)) by lia. exact K3.
  - (* response *)
    cbn [write_to_memory] in H0. destruct (write_to_memory t2 ol (off + 4 + get_type_size t1) l) as [c1 l1] eqn:E1.
    destruct (write_to_memory t1 ol (off + 4) l1) as [c2 l2] eqn:E2.
    destruct (add_local T32 l2) as [v l3] eqn:E3. injection H0 as <- <-.
    destruct (IHt2 _ _ _ _ _ E1 Hw Hl) as (X1 & X2).
    destruct (IHt1 _ _ _ _ _ E2 (lext_wf _ _ X1) (lext_live _ _ _ X1 Hl)) as (Y1 & Y2).
    destruct (add_ok _ _ _ _ E3 (lext_wf _ _ Y1)) as (A1 & A2 & A3).
    split; [eapply lext_trans; [exact X1|]; eapply lext_trans; eauto|].
    intros js ls k st a ws Q Hol Hn Hws Ha Hoff Hbnd HW. cbn [get_type_size clar2wasm_ty] in *. inversion Hws as [|? w1 ? ws1 W1 Hws1]; subst.
    destruct w1 as [z| |]; try contradiction. destruct (F2_firstn _ _ _ _ Hws1) as (F1 & F2 & F3).
    pose proof (size_nonneg t1) as Hs1. pose proof (size_nonneg t2) as Hs2.
    pose proof (lext_len _ _ A1). pose proof (lext_len _ _ Y1).
    replace (rev (VI32 z :: ws1) ++ k) with (rev (skipn (length (clar2wasm_ty t1)) ws1) ++ rev (firstn (length (clar2wasm_ty t1)) ws1) ++ VI32 z :: k)
      by (rewrite F3 at 3; cbn [rev]; rewrite rev_app_distr, <- !app_assoc; reflexivity).
    rewrite <- !app_assoc. cbn [app].
    eapply X2; [exact Hol|lia|exact F2|exact Ha|lia|lia|]. intros ls1 m1 K1 K2 K3.
    eapply Y2; [rewrite (lkeep_get _ _ _ _ K1); eauto| |exact F1|exact Ha|lia|cbn [with_mem smem]; rewrite (only_size _ _ _ _ K2); lia|].
    { rewrite (lkeep_len _ _ _ K1); lia. }
    intros ls2 m2 K4 K5 K6. cbn [with_mem smem] in K5. rewrite with_mem_twice.
    pose proof (lkeep_trans _ _ _ _ _ X1 K1 K4) as K14. pose proof (lext_trans _ _ _ X1 Y1) as XY.
    eapply store_word with (l := l2); [rewrite (lkeep_get _ _ _ _ K14); eauto|eapply lext_live; eauto|apply Y1|exact E3| | | |cbn [with_mem smem]; rewrite (only_size _ _ _ _ K5), (only_size _ _ _ _ K2); lia|];
      [rewrite (lkeep_len _ _ _ K14); lia|lia|lia|].
    intros ls3 m3 K7 K8 K9. rewrite with_mem_twice. cbn [with_mem smem] in K8. apply HW.
    + eapply lkeep_trans; eauto.
    + eapply only_trans; [|eapply only_weaken; [exact K8| |]; lia].
      eapply only_trans; [eapply only_weaken; [exact K2| |]|eapply only_weaken; [exact K5| |]]; lia.
    + cbn [blank firstn skipn app]. apply words_at_cons. cbn [word_bytes]. rewrite len_le_bytes. split; [exact K9|].
      eapply only_words; [exact K8|lia|]. apply words_at_app. rewrite (words_len_ty _ _ F1).
      replace (a + off + Z.of_nat 4) with (a + (off + 4)) by lia. split; [exact K6|].
      eapply only_words; [exact K5|lia|]. replace (a + (off + 4) + get_type_size t1) with (a + (off + 4 + get_type_size t1)) by lia. exact K3.
  - (* tuple *)
    change (write_fields_code ol fs off l = (c, l')) in H0.
    revert l off c l' H0 Hw Hl. induction H as [|[k0 t] fs Ht H IH]; intros l off c l' H0 Hw Hl; cbn [write_fields_code] in H0.
    + injection H0 as <- <-. split; [apply lext_refl; auto|]. intros js ls k st a ws Q Hol Hn Hws Ha Hoff Hbnd HW. inversion Hws; subst.
      cbn [rev app] in *. rewrite <- (with_mem_same st). apply HW; [apply lkeep_refl|apply only_refl|].
      cbn. apply holds_nil; cbn in Hbnd; lia.
    + destruct (write_fields_code ol fs (off + get_type_size t) l) as [c2 l2] eqn:E2.
      destruct (write_to_memory t ol off l2) as [c1 l1] eqn:E1. injection H0 as <- <-.
      destruct (IH _ _ _ _ E2 Hw Hl) as (X1 & X2). cbn [snd] in Ht.
      destruct (Ht _ _ _ _ _ E1 (lext_wf _ _ X1) (lext_live _ _ _ X1 Hl)) as (Y1 & Y2).
      split; [eapply lext_trans; eauto|].
      intros js ls k st a ws Q Hol Hn Hws Ha Hoff Hbnd HW.
      change (clar2wasm_ty (TTuple ((k0, t) :: fs))) with (clar2wasm_ty t ++ clar2wasm_ty (TTuple fs)) in Hws.
      change (get_type_size (TTuple ((k0, t) :: fs))) with (get_type_size t + get_type_size (TTuple fs)) in *.
      destruct (F2_firstn _ _ _ _ Hws) as (F1 & F2 & F3).
      pose proof (size_nonneg t) as Hs1. pose proof (size_nonneg (TTuple fs)) as Hs2. pose proof (lext_len _ _ Y1).
      replace (rev ws ++ k) with (rev (skipn (length (clar2wasm_ty t)) ws) ++ rev (firstn (length (clar2wasm_ty t)) ws) ++ k)
        by (rewrite F3 at 3; rewrite rev_app_distr, <- !app_assoc; reflexivity).
      rewrite <- !app_assoc.
      eapply X2; [exact Hol|lia|exact F2|exact Ha|lia|lia|]. intros ls1 m1 K1 K2 K3.
      eapply Y2; [rewrite (lkeep_get _ _ _ _ K1); eauto| |exact F1|exact Ha|lia|cbn [with_mem smem]; rewrite (only_size _ _ _ _ K2); lia|].
      { rewrite (lkeep_len _ _ _ K1); lia. }
      intros ls2 m2 K4 K5 K6. cbn [with_mem smem] in K5. rewrite with_mem_twice. apply HW.
      * eapply lkeep_trans; eauto.
      * eapply only_trans; [eapply only_weaken; [exact K2| |]|eapply only_weaken; [exact K5| |]]; lia.
      * change (blank (TTuple ((k0, t) :: fs)) ws) with (blank t (firstn (length (clar2wasm_ty t)) ws) ++ blank (TTuple fs) (skipn (length (clar2wasm_ty t)) ws)).
        apply words_at_app. rewrite (words_len_ty _ _ F1). split; [exact K6|].
        eapply only_words; [exact K5|lia|]. replace (a + off + get_type_size t) with (a + (off + get_type_size t)) by lia. exact K3.
Qed.

(** ** Loads *)
Lemma wp_load_at kd off js ls k (st : store HS) ol a z Q n :
  nth_error ls ol = Some (VI32 a) -> n = ldbytes kd -> holds (smem st) (a + off) (le_bytes n z) -> 0 <= z < 256 ^ Z.of_nat n ->
  wp js (mkcfg ls (ldval kd z :: k) st) Q ->
  wp (LGet ol :: Load kd off :: js) (mkcfg ls k st) Q.
Proof.
  intros H1 -> H2 H3 H4. eapply wp_lget; [exact H1|]. pose proof (holds_len _ _ _ H2) as HB. rewrite len_le_bytes in HB.
  apply wp_load; [lia|]. rewrite (ldn_holds _ _ _ _ H3 H2). exact H4.
Qed.

Lemma words_at_in m a w ws : words_at m a (w :: ws) -> holds m a (word_bytes w).
Proof. intros H. apply words_at_cons in H. tauto. Qed.

Lemma load_word off js ls k (st : store HS) ol a z Q :
  nth_error ls ol = Some (VI32 a) -> holds (smem st) (a + off) (word_bytes (VI32 z)) -> 0 <= z < m32 ->
  wp js (mkcfg ls (VI32 z :: k) st) Q -> wp (LGet ol :: Load L32 off :: js) (mkcfg ls k st) Q.
Proof. intros. eapply (wp_load_at L32); eauto. Qed.

Lemma load_word64 off js ls k (st : store HS) ol a z Q :
  nth_error ls ol = Some (VI32 a) -> holds (smem st) (a + off) (word_bytes (VI64 z)) -> 0 <= z < m64 ->
  wp js (mkcfg ls (VI64 z :: k) st) Q -> wp (LGet ol :: Load L64 off :: js) (mkcfg ls k st) Q.
Proof. intros. eapply (wp_load_at L64); eauto. Qed.

Definition loads (t : ty) : Prop := forall js ls k (st : store HS) ol off a ws Q,
  nth_error ls ol = Some (VI32 a) -> Forall2 wtyped (clar2wasm_ty t) ws -> words_at (smem st) (a + off) ws ->
  wp js (mkcfg ls (rev (blank t ws) ++ k) st) Q ->
  wp (read_from_memory t ol off ++ js) (mkcfg ls k st) Q.

Lemma loads_pair t : clar2wasm_ty t = [T32; T32] -> (forall ws, blank t ws = ws) ->
  (forall ol off, read_from_memory t ol off = [LGet ol; Load L32 off; LGet ol; Load L32 (off + 4)]) -> loads t.
Proof.
  intros Ht Hb Hc js ls k st ol off a ws Q Hol Hws Hm HW. rewrite Hc. rewrite Ht in Hws. rewrite Hb in HW.
  inversion Hws as [|? w1 ? ws1 W1 Hws1]; subst. inversion Hws1 as [|? w2 ? ws2 W2 Hws2]; subst. inversion Hws2; subst.
  destruct w1 as [x| |]; try contradiction. destruct w2 as [y| |]; try contradiction. cbn [wtyped] in *.
  apply words_at_cons in Hm. destruct Hm as (M1 & M2). apply words_at_in in M2. cbn [app].
  eapply load_word; eauto. eapply load_word; eauto.
  replace (a + (off + 4)) with (a + off + Z.of_nat (length (word_bytes (VI32 x)))) by (cbn [word_bytes]; rewrite len_le_bytes; lia). exact M2.
Qed.
Lemma loads_int t : clar2wasm_ty t = [T64; T64] -> (forall ws, blank t ws = ws) ->
  (forall ol off, read_from_memory t ol off = [LGet ol; Load L64 off; LGet ol; Load L64 (off + 8)]) -> loads t.
Proof.
  intros Ht Hb Hc js ls k st ol off a ws Q Hol Hws Hm HW. rewrite Hc. rewrite Ht in Hws. rewrite Hb in HW.
  inversion Hws as [|? w1 ? ws1 W1 Hws1]; subst. inversion Hws1 as [|? w2 ? ws2 W2 Hws2]; subst. inversion Hws2; subst.
  destruct w1 as [|x|]; try contradiction. destruct w2 as [|y|]; try contradiction. cbn [wtyped] in *.
  apply words_at_cons in Hm. destruct Hm as (M1 & M2). apply words_at_in in M2. cbn [app].
  eapply load_word64; eauto. eapply load_word64; eauto.
  replace (a + (off + 8)) with (a + off + Z.of_nat (length (word_bytes (VI64 x)))) by (cbn [word_bytes]; rewrite len_le_bytes; lia). exact M2.
Qed.

Lemma words_len t ws : Forall2 wtyped (clar2wasm_ty t) ws -> Z.of_nat (length (words_bytes ws)) = get_type_size t.
Proof. intros H. rewrite (words_bytes_len _ _ H). apply words_size_ty. Qed.

Lemma read_memory_ok t : loads t.
Proof.
  induction t using ty_ind'; try (apply loads_pair; reflexivity); try (apply loads_int; reflexivity);
    intros js ls k st ol off a ws Q Hol Hws Hm HW.
  - inversion Hws as [|? w1 ? ws1 W1 Hws1]; subst. inversion Hws1; subst. cbn [read_from_memory app]. apply wp_const. exact HW.
  - inversion Hws as [|? w1 ? ws1 W1 Hws1]; subst. inversion Hws1; subst. destruct w1 as [z| |]; try contradiction.
    cbn [read_from_memory app]. eapply load_word; eauto. apply words_at_in in Hm. exact Hm.
  - inversion Hws as [|? w1 ? ws1 W1 Hws1]; subst. destruct w1 as [z| |]; try contradiction. fold clar2wasm_ty in Hws1.
    cbn [read_from_memory app blank firstn skipn] in *. apply words_at_cons in Hm. destruct Hm as (M1 & M2).
    eapply load_word; eauto. eapply IHt; eauto.
    + replace (a + (off + 4)) with (a + off + Z.of_nat (length (word_bytes (VI32 z)))) by (cbn [word_bytes]; rewrite len_le_bytes; lia). exact M2.
    + cbn [rev] in HW. rewrite <- app_assoc in HW. exact HW.
  - inversion Hws as [|? w1 ? ws1 W1 Hws1]; subst. destruct w1 as [z| |]; try contradiction. fold clar2wasm_ty in Hws1.
    cbn [read_from_memory app blank firstn skipn] in *. apply words_at_cons in Hm. destruct Hm as (M1 & M2).
    destruct (F2_firstn _ _ _ _ Hws1) as (F1 & F2 & F3). rewrite F3 in M2. apply words_at_app in M2. destruct M2 as (M2 & M3).
    rewrite (words_len _ _ F1) in M3. cbn [word_bytes] in M2, M3. rewrite len_le_bytes in M2, M3.
    rewrite <- app_assoc. eapply load_word; eauto. eapply IHt1; [exact Hol|exact F1| |].
    { replace (a + (off + 4)) with (a + off + Z.of_nat 4) by lia. exact M2. }
    eapply IHt2; [exact Hol|exact F2| |].
    { replace (a + (off + 4 + get_type_size t1)) with (a + off + Z.of_nat 4 + get_type_size t1) by lia. exact M3. }
    cbn [rev] in HW. rewrite rev_app_distr, <- !app_assoc in HW. exact HW.
  - change (read_from_memory (TTuple fs) ol off) with (read_fields_code ol fs off).
    revert off k ws Hws Hm HW. induction H as [|[k0 t] fs Ht H IH]; intros off k ws Hws Hm HW.
    + inversion Hws; subst. exact HW.
    + change (clar2wasm_ty (TTuple ((k0, t) :: fs))) with (clar2wasm_ty t ++ clar2wasm_ty (TTuple fs)) in Hws.
      change (blank (TTuple ((k0, t) :: fs)) ws) with (blank t (firstn (length (clar2wasm_ty t)) ws) ++ blank (TTuple fs) (skipn (length (clar2wasm_ty t)) ws)) in HW.
      destruct (F2_firstn _ _ _ _ Hws) as (F1 & F2 & F3). rewrite F3 in Hm. apply words_at_app in Hm. destruct Hm as (M2 & M3).
      rewrite (words_len _ _ F1) in M3. cbn [read_fields_code]. rewrite <- app_assoc. cbn [snd] in Ht.
      eapply Ht; eauto. eapply IH; [exact F2| |].
      * replace (a + (off + get_type_size t)) with (a + off + get_type_size t) by lia. exact M3.
      * rewrite rev_app_distr, <- app_assoc in HW. exact HW.
Qed.
End Code.
