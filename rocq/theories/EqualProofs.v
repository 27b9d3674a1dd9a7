(** * Correctness of the emitted equality tests (proof support) *)
From Coq Require Import ZArith String List Bool Lia.
Import ListNotations.
From Verif Require Import Wasm Std StdEnv WasmLogic WasmTac Spec Mem MemFacts Bytes SpecBytes SpecUtf8 Clar Rep RepFacts Emit CallProofs EmitFacts EmitProofs Equal.
Open Scope Z_scope.

(** ** Preserving all live locals but some *)
Definition hide (b : list nat) (l : lst) : lst := mkl (l_tys l) (b ++ l_p32 l) (l_p64 l).
Lemma live_hide b l i : live (hide b l) i <-> live l i /\ ~ In i b.
Proof. unfold live, hide, llen, pool; cbn [l_tys l_p32 l_p64]. rewrite !in_app_iff. tauto. Qed.

Lemma lkeep_hide b l l1 x y : lext l l1 -> lkeep l1 x y -> lkeep (hide b l) x y.
Proof. intros HX (H1 & H2). split; auto. intros i Hi. apply live_hide in Hi. apply H2. eapply lext_live; eauto. tauto. Qed.
Lemma lkeep_hide2 b b1 l l1 x y : lext l l1 -> (forall i, In i b1 -> live l i -> In i b) -> lkeep (hide b1 l1) x y -> lkeep (hide b l) x y.
Proof.
  intros HX Hb (H1 & H2). split; auto. intros i Hi. apply live_hide in Hi. destruct Hi as (Hi & Hn). apply H2. apply live_hide.
  split; [eapply lext_live; eauto|]. intros Hin. apply Hn. auto.
Qed.
Lemma lkeep_hide_lset b l ls i v : ~ live l i \/ In i b -> lkeep (hide b l) ls (lset ls i v).
Proof. intros H. apply lkeep_lset. rewrite live_hide. tauto. Qed.

Lemma lvals_hide b l x y is ws : lkeep (hide b l) x y -> Forall (live l) is -> (forall i, In i is -> ~ In i b) -> lvals x is ws -> lvals y is ws.
Proof.
  intros Hk Hl Hn H. eapply lvals_keep; [exact Hk| |exact H]. apply Forall_forall. intros i Hi. apply live_hide. split; auto.
  rewrite Forall_forall in Hl. auto.
Qed.

Lemma live_not_eq l i j : live l i -> ~ live l j -> i <> j.
Proof. congruence. Qed.

Lemma lxor_eqb a b : (Z.lxor a b =? 0) = (a =? b).
Proof.
  destruct (Z.eqb_spec a b) as [->|Hn]; [rewrite Z.lxor_nilpotent; reflexivity|].
  apply Z.eqb_neq. intros H. apply Hn. apply Z.lxor_eq. exact H.
Qed.

Lemma add32_at a i n : 0 <= a -> 0 <= i -> a + i + 1 < n -> n <= m32 -> (a + i + 1) mod m32 = a + (i + 1).
Proof. intros. rewrite Z.mod_small; lia. Qed.

Ltac wst := unfold qblock; cbn [cont exit_block qloop]; unfold setstk; cbn [clocals cstack cstore firstn skipn app].

Section Code.
Context {HS : Type} (E : env HS).
Notation wp := (wp E).

(** ** Byte sequences *)
Lemma bytes_ok a b l c l' : wasm_equal_bytes a b l = (c, l') -> lwf l -> Forall (live l) a -> Forall (live l) b ->
  length a = 2%nat -> length b = 2%nat ->
  lext l l' /\
  forall js ls k (st : store HS) ws1 ws2 bs1 bs2 P Q, (llen l' <= length ls)%nat -> lvals ls a ws1 -> lvals ls b ws2 ->
    rep_bytes (smem st) P bs1 ws1 -> rep_bytes (smem st) P bs2 ws2 ->
    (forall r ls', (r = true <-> bs1 = bs2) -> lkeep l ls ls' -> wp js (mkcfg ls' (VI32 (b2z r) :: k) st) Q) ->
    wp (c ++ js) (mkcfg ls k st) Q.
Proof.
  intros H Hw Hla Hlb Ha Hb. destruct a as [|oa [|la [|]]]; try discriminate. destruct b as [|ob [|lb [|]]]; try discriminate. clear Ha Hb.
  unfold wasm_equal_bytes in H. cbn [lnth nth] in H.
  destruct (borrow T32 l) as [len l1] eqn:E1. destruct (borrow T32 l1) as [ca l2] eqn:E2. destruct (borrow T32 l2) as [cb l3] eqn:E3.
  assert (Hc := f_equal fst H). assert (Hl' := f_equal snd H). cbn [fst snd] in Hc, Hl'. subst c l'. clear H.
  destruct (borrow_ok _ _ _ _ E1 Hw) as (A1 & A2 & A3).
  destruct (borrow_ok _ _ _ _ E2 (lext_wf _ _ A1)) as (B1 & B2 & B3).
  destruct (borrow_ok _ _ _ _ E3 (lext_wf _ _ B1)) as (C1 & C2 & C3).
  assert (D1 : len <> ca) by (intros ->; auto).
  assert (D2 : len <> cb) by (intros ->; apply C3; eapply lext_live; eauto).
  assert (D3 : ca <> cb) by (intros ->; auto).
  assert (N2 : ~ live l ca) by (intros HX; apply B3; eapply lext_live; eauto).
  assert (N3 : ~ live l cb) by (intros HX; apply C3; eapply lext_live; [exact B1|]; eapply lext_live; eauto).
  assert (L1 : lext l l3) by (eapply lext_trans; [exact A1|]; eapply lext_trans; eauto).
  assert (LX : lext l (release T32 len (release T32 ca (release T32 cb l3)))).
  { apply release_ext; [apply release_ext; [apply release_ext; auto| |]| |]; auto.
    - apply release_live. split; [exact (lext_live _ _ _ C1 B2)|congruence].
    - apply release_live. split; [|congruence]. apply release_live. split; [|congruence]. eapply lext_live; [exact C1|]. eapply lext_live; eauto. }
  split; [exact LX|].
  inversion Hla as [|? ? La1 Hla']; subst. inversion Hla' as [|? ? La2 _]; subst.
  inversion Hlb as [|? ? Lb1 Hlb']; subst. inversion Hlb' as [|? ? Lb2 _]; subst. clear Hla Hla' Hlb Hlb'.
  intros js ls k st ws1 ws2 bs1 bs2 P Q Hn V1 V2 (o1 & -> & O1 & N1 & M1 & _) (o2 & -> & O2 & N4 & M2 & _) HW.
  change (llen (release T32 len (release T32 ca (release T32 cb l3)))) with (llen l3) in Hn.
  inversion V1 as [|? ? ? ? V1a V1']; subst. inversion V1' as [|? ? ? ? V1b _]; subst.
  inversion V2 as [|? ? ? ? V2a V2']; subst. inversion V2' as [|? ? ? ? V2b _]; subst. clear V1 V1' V2 V2'.
  assert (G1 : (len < length ls)%nat).
  { pose proof (lext_live _ _ _ C1 (lext_live _ _ _ B1 A2)) as (HX & _). lia. }
  assert (G2 : (ca < length ls)%nat) by (pose proof (lext_live _ _ _ C1 B2) as (HX & _); lia).
  assert (G3 : (cb < length ls)%nat) by (destruct C2 as (HX & _); lia).
  pose proof (holds_len _ _ _ M1) as (_ & Z1 & Z3). pose proof (holds_len _ _ _ M2) as (_ & Z2 & _).
  cbn [app]. apply wp_block. cbn [cstack firstn skipn]. unfold setstk; cbn [clocals cstore].
  eapply wp_lget; [exact V1b|]. eapply wp_lget; [exact V2b|]. eapply wp_b32; [reflexivity|]. apply wp_ltee.
  (* what happens after the block *)
  assert (KEY : forall ls2 z, lkeep l ls ls2 -> nth_error ls2 len = Some (VI32 z) -> (z = 0 <-> bs1 = bs2) ->
    wp (LGet len :: Eqz32 :: js) (mkcfg ls2 k st) Q).
  { intros ls2 z K1 K2 K3. eapply wp_lget; [exact K2|]. apply wp_eqz32. apply HW; auto. rewrite Z.eqb_eq. exact K3. }
  eapply wp_brif; [reflexivity|]. rewrite lxor_eqb. cbn [clocals cstack cstore]. unfold setstk; cbn [clocals cstack cstore].
  destruct (Z.eqb_spec (Z.of_nat (length bs1)) (Z.of_nat (length bs2))) as [EL|NL].
  2:{ wst. eapply KEY.
      - apply lkeep_lset; auto.
      - apply lset_same; auto.
      - split; [|intros ->; congruence]. intros HX. apply Z.lxor_eq in HX. congruence. }
  eapply wp_lget; [rewrite lset_other; [exact V1b|]; intros ->; auto|]. apply wp_ltee. apply wp_eqz32.
  apply wp_brif_bool; intros HE.
  2:{ wst. apply Z.eqb_eq in HE. eapply KEY with (z := 0).
      - eapply lkeep_trans0; apply lkeep_lset; auto.
      - rewrite lset_same; [rewrite HE; reflexivity|rewrite lset_len; auto].
      - split; auto. intros _. destruct bs1, bs2; auto; cbn in *; lia. }
  apply Z.eqb_neq in HE.
  assert (T1 : forall z l, lkeep l ls z -> live l oa -> live l ob -> nth_error z oa = Some (VI32 o1) /\ nth_error z ob = Some (VI32 o2)).
  { intros z l0 K X1 X2. rewrite !(lkeep_get _ _ _ _ K); auto. }
  set (ls1 := lset (lset ls len _) len _).
  assert (K1 : lkeep l ls ls1) by (unfold ls1; eapply lkeep_trans0; apply lkeep_lset; auto).
  eapply wp_lget; [apply (T1 ls1 l K1); auto|]. apply wp_lset.
  assert (K2 : lkeep l ls (lset ls1 ca (VI32 o1))) by (eapply lkeep_trans0; [exact K1|apply lkeep_lset; auto]).
  eapply wp_lget; [apply (T1 _ l K2); auto|]. apply wp_lset.
  set (ls2 := lset (lset ls1 ca (VI32 o1)) cb (VI32 o2)).
  assert (K3 : lkeep l ls ls2) by (eapply lkeep_trans0; [exact K2|apply lkeep_lset; auto]).
  eapply wp_loop0 with (z := Z.of_nat (length bs1)) (I := fun z s =>
    exists lz p r1 r2, s = mkcfg lz [] st /\ lkeep l ls lz /\ bs1 = p ++ r1 /\ bs2 = p ++ r2 /\ Z.of_nat (length r1) = z /\ z <> 0 /\
      nth_error lz len = Some (VI32 z) /\ nth_error lz ca = Some (VI32 (o1 + Z.of_nat (length p))) /\ nth_error lz cb = Some (VI32 (o2 + Z.of_nat (length p)))).
  - lia.
  - exists ls2, [], bs1, bs2. split; [reflexivity|]. split; [exact K3|]. split; [reflexivity|]. split; [reflexivity|]. split; [reflexivity|]. split; [exact HE|].
    cbn [length]. rewrite !Z.add_0_r. unfold ls2, ls1. split; [|split].
    + rewrite !lset_other by auto. apply lset_same. rewrite lset_len; auto.
    + rewrite lset_other by auto. apply lset_same. rewrite !lset_len; auto.
    + apply lset_same. rewrite !lset_len; auto.
  - clear K1 K2 K3 T1 ls1 ls2. intros z lz st' Hz (lz' & p & r1 & r2 & EQ & K1 & -> & -> & Hr & Hz0 & I1 & I2 & I3).
    apply cfg_inj in EQ. destruct EQ as (<- & ->).
    rewrite !app_length in *. assert (Hr2 : Z.of_nat (length r2) = z) by lia.
    destruct r1 as [|x r1]; [cbn in Hr; lia|]. destruct r2 as [|y r2]; [cbn in Hr2; lia|].
    cbn [length] in *. rewrite !Nat2Z.inj_succ in *.
    apply holds_app in M1. destruct M1 as (_ & M1). apply holds_app in M2. destruct M2 as (_ & M2).
    destruct (holds_cons _ _ _ _ M1) as (R1 & R2 & R3 & R4 & R5 & R6). destruct (holds_cons _ _ _ _ M2) as (S1 & S2 & S3 & S4 & S5 & S6).
    eapply wp_lget; [exact I2|]. apply wp_load; [cbn [ldbytes]; lia|]. rewrite Z.add_0_r. cbn [ldbytes ldval]. rewrite ldn1, R1.
    eapply wp_lget; [exact I3|]. apply wp_load; [cbn [ldbytes]; lia|]. rewrite Z.add_0_r. cbn [ldbytes ldval]. rewrite ldn1, S1.
    apply wp_r32. cbn [irel]. apply wp_brif_bool; intros HXY.
    2:{ cbn [qloop]. wst. apply negb_true_iff, Z.eqb_neq in HXY.
        eapply KEY with (z := z); [exact K1|exact I1|]. split; [lia|]. intros HX. apply app_inv_head in HX. congruence. }
    apply negb_false_iff, Z.eqb_eq in HXY. clear S1 R1. subst y.
    eapply wp_lget; [exact I2|]. apply wp_const. eapply wp_b32; [reflexivity|]. apply wp_lset.
    eapply wp_lget; [rewrite lset_other; [exact I3|congruence]|]. apply wp_const. eapply wp_b32; [reflexivity|]. apply wp_lset.
    eapply wp_lget; [rewrite !lset_other by congruence; exact I1|]. apply wp_const. eapply wp_b32; [reflexivity|]. apply wp_ltee.
    rewrite (Z.mod_small (z - 1)) by lia.
    set (lz1 := lset (lset (lset lz ca _) cb _) len _).
    assert (J1 : nth_error lz1 len = Some (VI32 (z - 1))) by (unfold lz1; apply lset_same; rewrite !lset_len, (lkeep_len _ _ _ K1); auto).
    assert (J2 : nth_error lz1 ca = Some (VI32 ((o1 + Z.of_nat (length p) + 1) mod m32))).
    { unfold lz1. rewrite !lset_other by congruence. apply lset_same. rewrite (lkeep_len _ _ _ K1); auto. }
    assert (J3 : nth_error lz1 cb = Some (VI32 ((o2 + Z.of_nat (length p) + 1) mod m32))).
    { unfold lz1. rewrite lset_other by congruence. apply lset_same. rewrite lset_len, (lkeep_len _ _ _ K1); auto. }
    assert (K2 : lkeep l ls lz1).
    { eapply lkeep_trans0; [exact K1|]. eapply lkeep_trans0; [|apply lkeep_lset; exact A3].
      eapply lkeep_trans0; apply lkeep_lset; auto. }
    clearbody lz1. apply wp_brif_eqz; intros HZ.
    + apply wp_nil. cbn [qloop]. unfold setstk; cbn [clocals cstack cstore app].
      apply wp_nil. wst. eapply KEY with (z := 0); [exact K2|rewrite J1, HZ; reflexivity|].
      split; auto. intros _. destruct r1; [|cbn in Hr; lia]. destruct r2; [reflexivity|cbn in Hr2; lia].
    + cbn [qloop]. unfold setstk; cbn [clocals cstack cstore firstn].
      exists (z - 1). split; [lia|]. exists lz1, (p ++ [x]), r1, r2. split; [reflexivity|]. split; [exact K2|].
      rewrite <- !app_assoc. split; [reflexivity|]. split; [reflexivity|]. split; [lia|]. split; [lia|]. split; [exact J1|].
      rewrite app_length. cbn [length]. rewrite Nat2Z.inj_add. cbn [Z.of_nat Pos.of_succ_nat].
      apply holds_len in R6. apply holds_len in S6.
      rewrite J2, J3. rewrite !Z.mod_small by lia. rewrite <- !Z.add_assoc. split; reflexivity.
Qed.

(** ** Representations are injective on the part that is compared *)
Lemma cname_nonempty n : contract_name n -> n <> [].
Proof. intros [->|(c & r & -> & _)]; discriminate. Qed.

Lemma prin_bytes_inj p q : prin_ok p -> prin_ok q -> prin_bytes p = prin_bytes q -> p = q.
Proof.
  destruct p as [v h|v h n], q as [v' h'|v' h' n']; cbn [prin_ok prin_bytes].
  - intros (_ & L1 & _) (_ & L2 & _) H. injection H as -> H. apply app_inj_len in H; [|congruence]. destruct H as (-> & _). reflexivity.
  - intros (_ & L1 & _) ((_ & L2 & _) & Hn & _) H. injection H as -> H. apply app_inj_len in H; [|congruence]. destruct H as (_ & H).
    injection H as H _. apply cname_nonempty in Hn. destruct n'; [congruence|cbn in H; lia].
  - intros ((_ & L1 & _) & Hn & _) (_ & L2 & _) H. injection H as -> H. apply app_inj_len in H; [|congruence]. destruct H as (_ & H).
    injection H as H _. apply cname_nonempty in Hn. destruct n; [congruence|cbn in H; lia].
  - intros ((_ & L1 & _) & _) ((_ & L2 & _) & _) H. injection H as -> H. apply app_inj_len in H; [|congruence]. destruct H as (-> & H).
    injection H as _ ->. reflexivity.
Qed.

Lemma scalars_inj cs : forall cs', Forall scalar cs -> Forall scalar cs' -> flat_map (be_bytes 4) cs = flat_map (be_bytes 4) cs' -> cs = cs'.
Proof.
  induction cs as [|c cs IH]; intros [|c' cs'] H1 H2 H; cbn [flat_map] in H; auto.
  - apply (f_equal (@length Z)) in H. rewrite app_length, len_be_bytes in H. discriminate.
  - apply (f_equal (@length Z)) in H. rewrite app_length, len_be_bytes in H. discriminate.
  - apply app_inj_len in H; [|rewrite !len_be_bytes; reflexivity]. destruct H as (H & H').
    inversion H1; inversion H2; subst. f_equal; [|apply IH; auto]. unfold scalar in *. apply (be_bytes_inj 4); auto; cbn; lia.
Qed.

Lemma int_words_inj z z' : - 2 ^ 127 <= z < 2 ^ 128 -> - 2 ^ 127 <= z' < 2 ^ 128 -> z - z' < 2 ^ 128 -> z' - z < 2 ^ 128 ->
  z mod 2 ^ 64 = z' mod 2 ^ 64 -> z / 2 ^ 64 mod 2 ^ 64 = z' / 2 ^ 64 mod 2 ^ 64 -> z = z'.
Proof.
  intros H1 H2 H5 H6 H3 H4.
  assert (HM : z mod 2 ^ 128 = z' mod 2 ^ 128).
  { change (2 ^ 128) with (2 ^ 64 * 2 ^ 64). rewrite !Z.rem_mul_r by lia. congruence. }
  clear H3 H4. assert (HD : (z - z') mod 2 ^ 128 = 0) by (rewrite Zminus_mod, HM, Z.sub_diag; reflexivity).
  apply Z.mod_divide in HD; [|lia]. destruct HD as (q & HD). nia.
Qed.

(** ** All types *)
Definition compares (t : ty) (c : list instr) (l l' : lst) (a b : list nat) : Prop :=
  lext l l' /\
  forall js ls k (st : store HS) ws1 ws2 v1 v2 P Q, (llen l' <= length ls)%nat -> lvals ls a ws1 -> lvals ls b ws2 ->
    has_type t v1 -> has_type t v2 -> rep (smem st) P t v1 ws1 -> rep (smem st) P t v2 ws2 ->
    (forall r ls', (r = true <-> v1 = v2) -> lkeep (hide b l) ls ls' -> wp js (mkcfg ls' (VI32 (b2z r) :: k) st) Q) ->
    wp (c ++ js) (mkcfg ls k st) Q.

Lemma compares_bytes t c l l' a b : wasm_equal_bytes a b l = (c, l') -> lwf l -> Forall (live l) a -> Forall (live l) b ->
  length a = 2%nat -> length b = 2%nat ->
  (forall m P v1 v2 ws1 ws2, has_type t v1 -> has_type t v2 -> rep m P t v1 ws1 -> rep m P t v2 ws2 ->
     exists bs1 bs2, rep_bytes m P bs1 ws1 /\ rep_bytes m P bs2 ws2 /\ (bs1 = bs2 <-> v1 = v2)) ->
  compares t c l l' a b.
Proof.
  intros H Hw La Lb Na Nb HR. destruct (bytes_ok _ _ _ _ _ H Hw La Lb Na Nb) as (H1 & H2). split; [exact H1|].
  intros js ls k st ws1 ws2 v1 v2 P Q Hn V1 V2 T1 T2 R1 R2 HW. destruct (HR _ _ _ _ _ _ T1 T2 R1 R2) as (bs1 & bs2 & B1 & B2 & B3).
  eapply H2; eauto. intros r ls' Hr K. apply HW; [rewrite Hr; exact B3|]. eapply lkeep_hide; [|exact K]. apply lext_refl; auto.
Qed.

Lemma lvals_cons ls i is w ws : lvals ls (i :: is) (w :: ws) <-> nth_error ls i = Some w /\ lvals ls is ws.
Proof. unfold lvals. split; [intros H; inversion H; auto|intros (H1 & H2); constructor; auto]. Qed.
Lemma lvals_len ls is ws : lvals ls is ws -> length is = length ws.
Proof. apply F2_len. Qed.
Lemma lvals_split ls is ws1 ws2 : lvals ls is (ws1 ++ ws2) -> lvals ls (firstn (length ws1) is) ws1 /\ lvals ls (skipn (length ws1) is) ws2.
Proof.
  intros H. pose proof (lvals_len _ _ _ H) as HL. rewrite app_length in HL.
  rewrite <- (firstn_skipn (length ws1) is) in H. apply lvals_app in H; [exact H|]. rewrite firstn_length. lia.
Qed.
Lemma Forall_firstn {A} (R : A -> Prop) n x : Forall R x -> Forall R (firstn n x).
Proof. revert x; induction n; intros [|y x] H; cbn; auto. inversion H; auto. Qed.
Lemma Forall_skipn {A} (R : A -> Prop) n x : Forall R x -> Forall R (skipn n x).
Proof. revert x; induction n; intros [|y x] H; cbn; auto. inversion H; auto. Qed.
Lemma in_firstn {A} (i : A) n x : In i (firstn n x) -> In i x.
Proof. revert x; induction n; intros [|y x] H; cbn in *; auto; try contradiction. destruct H; auto. Qed.
Lemma in_skipn {A} (i : A) n x : In i (skipn n x) -> In i x.
Proof. revert x; induction n; intros [|y x] H; cbn in *; auto. Qed.
Lemma NoDup_app_split {A} (x y : list A) : NoDup (x ++ y) <-> NoDup x /\ NoDup y /\ forall i, In i x -> ~ In i y.
Proof.
  induction x as [|a x IH]; cbn; split.
  - intros H. split; [constructor|]. split; [exact H|]. tauto.
  - tauto.
  - intros H. inversion H as [|? ? H1 H2]; subst. apply IH in H2. destruct H2 as (H2 & H3 & H4). rewrite in_app_iff in H1.
    split; [constructor; tauto|]. split; auto. intros i [->|Hi]; [tauto|auto].
  - intros (H1 & H2 & H3). inversion H1; subst. constructor; [rewrite in_app_iff; intros [|]; [tauto|eapply H3; eauto]|].
    apply IH. split; auto.
Qed.
Lemma NoDup_fs {A} (x y : list A) n : NoDup (x ++ y) -> NoDup (firstn n x ++ firstn n y) /\ NoDup (skipn n x ++ skipn n y) /\
  (forall i, In i (skipn n x ++ skipn n y) -> ~ In i (firstn n x ++ firstn n y)).
Proof.
  intros H. apply NoDup_app_split in H. destruct H as (H1 & H2 & H3).
  pose proof H1 as H1'. pose proof H2 as H2'.
  rewrite <- (firstn_skipn n x) in H1'. rewrite <- (firstn_skipn n y) in H2'.
  apply NoDup_app_split in H1'. apply NoDup_app_split in H2'. destruct H1' as (A1 & A2 & A3). destruct H2' as (B1 & B2 & B3).
  split; [|split].
  - apply NoDup_app_split. split; auto. split; auto. intros i Hi Hj. apply in_firstn in Hi. apply in_firstn in Hj. eapply H3; eauto.
  - apply NoDup_app_split. split; auto. split; auto. intros i Hi Hj. apply in_skipn in Hi. apply in_skipn in Hj. eapply H3; eauto.
  - intros i Hi Hj. apply in_app_iff in Hi. apply in_app_iff in Hj. destruct Hi as [Hi|Hi], Hj as [Hj|Hj].
    + eapply A3; eauto.
    + apply in_skipn in Hi. apply in_firstn in Hj. eapply H3; eauto.
    + apply in_skipn in Hi. apply in_firstn in Hj. eapply H3; eauto.
    + eapply B3; eauto.
Qed.

Lemma hide_keep_some (b b1 : list nat) l l1 x y : lext l l1 -> incl b1 b -> lkeep (hide b1 l1) x y -> lkeep (hide b l) x y.
Proof. intros H1 H2. apply lkeep_hide2; auto. Qed.

Lemma rep_opt_cases m P t v ws : rep m P (TOpt t) v ws -> exists tag ws', ws = VI32 tag :: ws' /\ Forall2 wtyped (clar2wasm_ty t) ws' /\
  ((tag = 0 /\ v = CNone) \/ (tag = 1 /\ exists v', v = CSome v' /\ rep m P t v' ws')).
Proof.
  destruct v; cbn [rep]; try contradiction; intros (ws' & -> & H).
  - exists 0, ws'. split; auto. 
  - exists 1, ws'. split; auto. split; [eapply rep_typed; eauto|]. right. split; auto. eauto.
Qed.
Lemma rep_resp_cases m P t e v ws : rep m P (TResp t e) v ws -> exists tag ws1 ws2, ws = VI32 tag :: ws1 ++ ws2 /\
  Forall2 wtyped (clar2wasm_ty t) ws1 /\ Forall2 wtyped (clar2wasm_ty e) ws2 /\
  ((tag = 1 /\ exists v', v = COk v' /\ rep m P t v' ws1) \/ (tag = 0 /\ exists v', v = CErr v' /\ rep m P e v' ws2)).
Proof.
  destruct v; cbn [rep]; try contradiction; intros (ws1 & ws2 & -> & H1 & H2).
  - exists 1, ws1, ws2. split; auto. split; [eapply rep_typed; eauto|]. split; auto. left. split; auto. eauto.
  - exists 0, ws1, ws2. split; auto. split; auto. split; [eapply rep_typed; eauto|]. right. split; auto. eauto.
Qed.

Definition equal_fields (res : nat) : list (string * ty) -> list nat -> list nat -> lst -> list instr * lst :=
  fix go fs a b l {struct fs} :=
    match fs with
    | [] => ([], l)
    | (_, t') :: fs =>
        let n := length (clar2wasm_ty t') in
        let '(c, l) := wasm_equal t' (firstn n a) (firstn n b) l in
        let '(cs, l) := go fs (skipn n a) (skipn n b) l in
        (c ++ [LTee res; Eqz32; BrIf 0] ++ cs, l)
    end.

Definition equal_right (t : ty) : Prop := ty_ok t -> equal_implemented t = true ->
  forall a b l c l', wasm_equal t a b l = (c, l') -> lwf l -> Forall (live l) a -> Forall (live l) b -> NoDup (a ++ b) ->
  length a = length (clar2wasm_ty t) -> length b = length (clar2wasm_ty t) -> compares t c l l' a b.

Lemma two_lists {A} (a b : list A) n m : length a = n -> length b = n -> NoDup (a ++ b) -> 
  NoDup (firstn m a ++ firstn m b) /\ NoDup (skipn m a ++ skipn m b).
Proof. intros _ _ H. split; eapply NoDup_fs; eauto. Qed.

Lemma fields_equal_ok res fs : Forall (fun f => equal_right (snd f)) fs -> fields_ok fs -> forallb (fun f => equal_implemented (snd f)) fs = true ->
  forall a b l c l', equal_fields res fs a b l = (c, l') -> lwf l -> Forall (live l) a -> Forall (live l) b -> NoDup (a ++ b) ->
  live l res -> ~ In res (a ++ b) ->
  length a = length (clar2wasm_ty (TTuple fs)) -> length b = length (clar2wasm_ty (TTuple fs)) ->
  lext l l' /\
  forall js ls k (st : store HS) ws1 ws2 vs1 vs2 P Q, (llen l' <= length ls)%nat -> lvals ls a ws1 -> lvals ls b ws2 ->
    fields_typed fs vs1 -> fields_typed fs vs2 -> rep_fields (smem st) P fs vs1 ws1 -> rep_fields (smem st) P fs vs2 ws2 ->
    (forall ls', lkeep (hide (res :: b) l) ls ls' -> vs1 = vs2 -> (fs <> [] -> nth_error ls' res = Some (VI32 1)) -> (fs = [] -> ls' = ls) -> wp js (mkcfg ls' k st) Q) ->
    (forall ls', lkeep (hide (res :: b) l) ls ls' -> vs1 <> vs2 -> nth_error ls' res = Some (VI32 0) -> Q (OBr 0 (mkcfg ls' k st))) ->
    wp (c ++ js) (mkcfg ls k st) Q.
Proof.
  induction 1 as [|[k0 t] fs Ht Hfs IH]; intros Hok Him a b l c l' H Hw La Lb Nd Hr Nr Na Nb; cbn [equal_fields] in H.
  - injection H as <- <-. split; [apply lext_refl; auto|]. intros js ls k st ws1 ws2 vs1 vs2 P Q Hn V1 V2 T1 T2 R1 R2 HW1 HW2.
    destruct vs1; cbn in T1; [|contradiction]. destruct vs2; cbn in T2; [|contradiction]. cbn [app]. apply HW1; auto; [apply lkeep_refl|congruence].
  - change (clar2wasm_ty (TTuple ((k0, t) :: fs))) with (clar2wasm_ty t ++ clar2wasm_ty (TTuple fs)) in *.
    rewrite app_length in Na, Nb. cbn [snd] in Ht.
    set (n := length (clar2wasm_ty t)) in *.
    destruct (wasm_equal t (firstn n a) (firstn n b) l) as [c1 l1] eqn:E1.
    destruct (equal_fields res fs (skipn n a) (skipn n b) l1) as [c2 l2] eqn:E2. injection H as <- <-.
    destruct Hok as (Hok1 & Hok2). cbn [forallb snd] in Him. apply andb_true_iff in Him. destruct Him as (Hi1 & Hi2).
    destruct (NoDup_fs _ _ n Nd) as (Nd1 & Nd2 & Nd3).
    destruct (Ht Hok1 Hi1 _ _ _ _ _ E1 Hw) as (X1 & X2); auto using Forall_firstn.
    { rewrite firstn_length; lia. } { rewrite firstn_length; lia. }
    assert (NX : ~ In res (skipn n a ++ skipn n b)).
    { intros Hx. apply Nr. apply in_app_iff in Hx. apply in_app_iff. destruct Hx as [Hx|Hx]; apply in_skipn in Hx; auto. }
    destruct (IH Hok2 Hi2 _ _ _ _ _ E2 (lext_wf _ _ X1)) as (Y1 & Y2); auto.
    { apply Forall_skipn. eapply Forall_impl; [|exact La]. intros; eapply lext_live; eauto. }
    { apply Forall_skipn. eapply Forall_impl; [|exact Lb]. intros; eapply lext_live; eauto. }
    { eapply lext_live; eauto. }
    { rewrite skipn_length; lia. } { rewrite skipn_length; lia. }
    split; [eapply lext_trans; eauto|].
    intros js ls k st ws1 ws2 vs1 vs2 P Q Hn V1 V2 T1 T2 R1 R2 HW1 HW2.
    destruct vs1 as [|[k1 v1] vs1]; cbn [rep_fields fields_typed] in *; [contradiction|]. destruct vs2 as [|[k2 v2] vs2]; cbn [rep_fields fields_typed] in *; [contradiction|].
    destruct R1 as (u1 & u2 & <- & -> & R1 & R1'). destruct R2 as (w1 & w2 & <- & -> & R2 & R2').
    destruct T1 as (_ & T1 & T1'). destruct T2 as (_ & T2 & T2').
    assert (G1 : length u1 = n) by (unfold n; symmetry; eapply F2_len, rep_typed; eauto).
    assert (G2 : length w1 = n) by (unfold n; symmetry; eapply F2_len, rep_typed; eauto).
    apply lvals_split in V1. apply lvals_split in V2. rewrite G1 in V1. rewrite G2 in V2. destruct V1 as (V1 & V1'), V2 as (V2 & V2').
    rewrite <- app_assoc. pose proof (lext_len _ _ Y1). pose proof (lext_len _ _ X1).
    assert (LR : (res < llen l)%nat) by (destruct Hr; lia).
    eapply X2; [lia|exact V1|exact V2|exact T1|exact T2|exact R1|exact R2|].
    intros r ls1 Hr1 K1. cbn [app]. apply wp_ltee.
    assert (KB : lkeep (hide (res :: b) l) ls (lset ls1 res (VI32 (b2z r)))).
    { eapply lkeep_trans0; [|apply lkeep_hide_lset; right; left; reflexivity].
      eapply hide_keep_some; [apply lext_refl; auto| |exact K1]. intros i Hi. right. eapply in_firstn; eauto. }
    apply wp_eqz32. apply wp_brif_bool; intros HB.
    + destruct r; [|discriminate]. assert (HV : v1 = v2) by (apply Hr1; reflexivity).
      assert (KA : lkeep (hide (res :: firstn n b) l) ls (lset ls1 res (VI32 1))).
      { eapply lkeep_trans0; [|apply lkeep_hide_lset; right; left; reflexivity].
        eapply hide_keep_some; [apply lext_refl; auto| |exact K1]. intros i Hi. right. exact Hi. }
      cbn [b2z] in *.
      eapply Y2; [rewrite lset_len, (lkeep_len _ _ _ K1); lia| | |exact T1'|exact T2'|exact R1'|exact R2'| |].
      * eapply lvals_hide; [exact KA|apply Forall_skipn; exact La| |exact V1']. intros i Hi [<-|Hj].
        -- apply NX. apply in_app_iff; auto.
        -- eapply Nd3; apply in_app_iff; [left; exact Hi|right; exact Hj].
      * eapply lvals_hide; [exact KA|apply Forall_skipn; exact Lb| |exact V2']. intros i Hi [<-|Hj].
        -- apply NX. apply in_app_iff; auto.
        -- eapply Nd3; apply in_app_iff; [right; exact Hi|right; exact Hj].
      * intros ls2 K2 HV2 S1 S2. apply HW1.
        -- eapply lkeep_trans0; [exact KB|]. eapply hide_keep_some; [exact X1| |exact K2]. intros i [->|Hi]; [left; auto|]. right. eapply in_skipn; eauto.
        -- congruence.
        -- intros _. destruct fs; [|apply S1; discriminate]. rewrite S2 by reflexivity. apply lset_same. rewrite (lkeep_len _ _ _ K1). lia.
        -- discriminate.
      * intros ls2 K2 HV2 S1. apply HW2; auto.
        -- eapply lkeep_trans0; [exact KB|]. eapply hide_keep_some; [exact X1| |exact K2]. intros i [->|Hi]; [left; auto|]. right. eapply in_skipn; eauto.
        -- congruence.
    + destruct r; [discriminate|]. apply HW2; [exact KB| |].
      * intros HX. injection HX as HX _. apply Hr1 in HX. discriminate.
      * apply lset_same. rewrite (lkeep_len _ _ _ K1). lia.
Qed.

Lemma lkeep_restore i b l x y v : lkeep (hide (i :: b) l) x y -> live l i -> (llen l <= length x)%nat -> nth_error x i = Some v -> lkeep (hide b l) x (lset y i v).
Proof.
  intros (H1 & H2) Hl HL Hi. split; [rewrite lset_len; exact H1|]. intros j Hj. destruct (Nat.eq_dec j i) as [->|Hn].
  - rewrite Hi. apply lset_same. destruct Hl. lia.
  - rewrite lset_other by auto. apply H2. apply live_hide in Hj. apply live_hide. split; [tauto|]. intros [->|Hin]; tauto.
Qed.

Lemma rep_elems_suffix m P t p : forall r o, rep_elems m P t (p ++ r) o -> rep_elems m P t r (o + Z.of_nat (length p) * words_size (clar2wasm_ty t)).
Proof.
  induction p as [|x p IH]; intros r o H; cbn [app length] in *.
  - replace (o + Z.of_nat 0 * words_size (clar2wasm_ty t)) with o by lia. exact H.
  - cbn [rep_elems] in H. destruct H as (_ & H). apply IH in H. rewrite Nat2Z.inj_succ.
    replace (o + Z.succ (Z.of_nat (length p)) * words_size (clar2wasm_ty t)) with
      (o + words_size (clar2wasm_ty t) + Z.of_nat (length p) * words_size (clar2wasm_ty t)) by lia. exact H.
Qed.

Lemma ar_sub z n size : z = Z.succ n -> 0 <= n -> 4 <= size -> forall q, 0 <= q -> (q + z) * size < m32 -> (z * size - size) mod m32 = (z - 1) * size.
Proof. intros -> Hn Hs q Hq H. rewrite Z.mod_small by nia. lia. Qed.
Lemma ar_zero z size : 4 <= size -> (z - 1) * size = 0 -> z = 1.
Proof. intros. nia. Qed.
Lemma ar_nz z size : 4 <= size -> z * size = 0 -> z = 0.
Proof. intros. nia. Qed.
Lemma ar_add o q n size M : 0 <= o -> 0 <= q -> 1 <= n -> 4 <= size -> o + (q + Z.succ n) * size <= M -> M <= m32 -> (o + q * size + size) mod m32 = o + (q + 1) * size.
Proof. intros. rewrite Z.mod_small by nia. lia. Qed.

Lemma list_equal_ok mx t : equal_right t -> equal_right (TList mx t).
Proof.
  intros IH Hok Him a b l c l' H Hw La Lb Nd Na Nb.
  destruct Hok as (_ & Hok). cbn [equal_implemented] in Him.
  destruct a as [|oa [|la [|]]]; try discriminate. destruct b as [|ob [|lb [|]]]; try discriminate. clear Na Nb.
  cbn [wasm_equal lnth nth] in H.
  destruct (save_to_locals t l) as [[fl s1] l1] eqn:E1. destruct (save_to_locals t l1) as [[nl s2] l2] eqn:E2.
  destruct (wasm_equal t fl nl l2) as [c0 l3] eqn:E3.
  assert (Hc := f_equal fst H). assert (Hl' := f_equal snd H). cbn [fst snd] in Hc, Hl'. subst c l'. clear H.
  destruct (save_ok E _ _ _ _ _ E1 Hw) as (A1 & A2 & A3 & A4).
  destruct (save_ok E _ _ _ _ _ E2 (lext_wf _ _ A1)) as (B1 & B2 & B3 & B4).
  assert (NDl : NoDup (fl ++ nl)).
  { unfold save_to_locals in E1, E2. destruct (add_locals _ l) as [f' l1'] eqn:F1. injection E1 as <- _ <-.
    destruct (add_locals _ l1') as [n' l2'] eqn:F2. injection E2 as <- _ <-.
    destruct (add_locals_ok _ _ _ _ F1 Hw) as (_ & C2 & _ & C4 & _). destruct (add_locals_ok _ _ _ _ F2 (lext_wf _ _ A1)) as (_ & _ & D3 & D4 & _).
    apply NoDup_app_split. split; [apply NoDup_rev; auto|]. split; [apply NoDup_rev; auto|]. intros i Hi Hj. apply in_rev in Hi. apply in_rev in Hj.
    rewrite Forall_forall in C2, D3. exact (D3 _ Hj (C2 _ Hi)). }
  destruct (IH Hok Him _ _ _ _ _ E3 (lext_wf _ _ B1)) as (X1 & X2); auto.
  { eapply Forall_impl; [|exact A2]. intros; eapply lext_live; eauto. }
  assert (L2 : lext l l2) by (eapply lext_trans; eauto).
  split; [eapply lext_trans; eauto|].
  intros js ls k st ws1 ws2 v1 v2 P Q Hn V1 V2 T1 T2 R1 R2 HW.
  destruct v1 as [| | | | | | | |vs1| | | | |]; cbn [rep] in R1; try contradiction. destruct v2 as [| | | | | | | |vs2| | | | |]; cbn [rep] in R2; try contradiction.
  destruct R1 as (o1 & -> & O1 & N1 & M1 & _ & R1). destruct R2 as (o2 & -> & O2 & N2 & M2 & _ & R2).
  change (rep_elems (smem st) P t vs1 o1) in R1. change (rep_elems (smem st) P t vs2 o2) in R2.
  destruct T1 as (_ & T1). destruct T2 as (_ & T2).
  apply lvals_cons in V1. destruct V1 as (V1a & V1b). apply lvals_cons in V1b. destruct V1b as (V1b & _).
  apply lvals_cons in V2. destruct V2 as (V2a & V2b). apply lvals_cons in V2b. destruct V2b as (V2b & _).
  inversion La as [|? ? La1 La']; subst. inversion La' as [|? ? La2 _]; subst. inversion Lb as [|? ? Lb1 Lb']; subst. inversion Lb' as [|? ? Lb2 _]; subst.
  clear La La' Lb Lb'. cbn [app] in Nd.
  assert (D : oa <> la /\ oa <> ob /\ oa <> lb /\ la <> ob /\ la <> lb /\ ob <> lb).
  { inversion Nd as [|? ? Q1 Nd1]; subst. inversion Nd1 as [|? ? Q2 Nd2]; subst. inversion Nd2 as [|? ? Q3 Nd3]; subst. cbn [In] in *. intuition. }
  destruct D as (D1 & D2 & D3 & D4 & D5 & D6).
  rewrite words_size_ty in *. set (size := get_type_size t) in *.
  assert (Hs : 4 <= size) by (apply size_pos; auto).
  pose proof (lext_len _ _ A1). pose proof (lext_len _ _ B1). pose proof (lext_len _ _ X1).
  pose proof (lext_len _ _ L2) as HL2.
  cbn [app]. eapply wp_lget; [exact V1b|]. eapply wp_lget; [exact V2b|]. apply wp_r32. cbn [irel].
  apply wp_if_bool; intros HE.
  2:{ apply Z.eqb_neq in HE. cbn [firstn skipn]. apply wp_const. apply wp_nil. wst. apply (HW false); [|apply lkeep_refl].
      split; [discriminate|]. intros HX. injection HX as ->. congruence. }
  apply Z.eqb_eq in HE. assert (HL : length vs1 = length vs2) by (clear - HE Hs; apply Z.mul_reg_r in HE; lia). cbn [firstn skipn].
  eapply wp_lget; [exact V2b|]. apply wp_eqz32. apply wp_if_bool; intros HZ; cbn [firstn skipn].
  { apply Z.eqb_eq in HZ. apply wp_const. apply wp_nil. wst. apply wp_nil. wst. apply (HW true); [|apply lkeep_refl].
    split; auto. intros _. assert (length vs2 = 0)%nat by (apply ar_nz in HZ; [lia|exact Hs]). destruct vs1, vs2; try discriminate; reflexivity. }
  apply Z.eqb_neq in HZ. eapply wp_lget; [exact V1a|].
  (* after the loop *)
  assert (KEY : forall lz z, lkeep (hide [oa; ob; lb] l) ls lz -> nth_error lz lb = Some (VI32 z) -> (z = 0 <-> vs1 = vs2) ->
    wp [LSet oa; LGet lb; Eqz32] (mkcfg lz [VI32 o1] st) (qblock E 1 [] [] (qblock E 1 k js Q))).
  { intros lz z K1 K2 K3. apply wp_lset. eapply wp_lget; [rewrite lset_other; [exact K2|auto]|]. apply wp_eqz32. apply wp_nil. wst. apply wp_nil. wst.
    apply HW.
    - rewrite Z.eqb_eq, K3. split; [intros ->; reflexivity|]. intros HX; injection HX as HX; exact HX.
    - eapply lkeep_restore; eauto. lia. }
  eapply wp_loop0 with (z := Z.of_nat (length vs1)) (I := fun z s =>
    exists lz p r1 r2, s = mkcfg lz [] st /\ lkeep (hide [oa; ob; lb] l) ls lz /\ vs1 = p ++ r1 /\ vs2 = p ++ r2 /\ Z.of_nat (length r1) = z /\ z <> 0 /\
      nth_error lz lb = Some (VI32 (z * size)) /\ nth_error lz oa = Some (VI32 (o1 + Z.of_nat (length p) * size)) /\ nth_error lz ob = Some (VI32 (o2 + Z.of_nat (length p) * size))).
  - lia.
  - exists ls, [], vs1, vs2. split; [reflexivity|]. split; [apply lkeep_refl|]. split; [reflexivity|]. split; [reflexivity|]. split; [reflexivity|]. split; [intros HX; apply HZ; rewrite <- HL, HX; reflexivity|].
    split; [rewrite V2b, HL; reflexivity|]. rewrite V1a, V2a. cbn [length]. split; do 2 f_equal; lia.
  - intros z lz st' Hz (lz' & p & r1 & r2 & EQ & K1 & EV1 & EV2 & Hr & Hz0 & I1 & I2 & I3).
    apply cfg_inj in EQ. destruct EQ as (<- & ->).
    assert (Hr2 : Z.of_nat (length r2) = z) by (rewrite EV1, EV2, !app_length in HL; lia).
    destruct r1 as [|x r1]; [cbn in Hr; lia|]. destruct r2 as [|y r2]; [cbn in Hr2; lia|].
    rewrite EV1 in R1, M1, N1. rewrite EV2 in R2, M2, N2. apply rep_elems_suffix in R1. apply rep_elems_suffix in R2. rewrite words_size_ty in R1, R2. fold size in R1, R2.
    cbn [rep_elems] in R1, R2. destruct R1 as ((u1 & W1 & R1) & _). destruct R2 as ((u2 & W2 & R2) & _).
    assert (T1' : has_type t x) by (rewrite EV1 in T1; apply Forall_app in T1; destruct T1 as (_ & T1); inversion T1; auto).
    assert (T2' : has_type t y) by (rewrite EV2 in T2; apply Forall_app in T2; destruct T2 as (_ & T2); inversion T2; auto).
    rewrite !app_length, !Nat2Z.inj_add in *. cbn [length] in *. rewrite !Nat2Z.inj_succ in *.
    assert (LZ : length lz = length ls) by (exact (lkeep_len _ _ _ K1)).
    eapply (read_memory_ok E t) with (a := o1 + Z.of_nat (length p) * size); [exact I2|exact (rep_typed _ _ _ _ _ R1)|rewrite Z.add_0_r; exact W1|].
    eapply A4; [rewrite (F2_len _ _ _ (blank_typed _ _ (rep_typed _ _ _ _ _ R1))); reflexivity|lia|]. intros lz1 K2 V1.
    assert (I3' : nth_error lz1 ob = Some (VI32 (o2 + Z.of_nat (length p) * size))) by (rewrite (lkeep_get _ _ _ _ K2); auto).
    eapply (read_memory_ok E t) with (a := o2 + Z.of_nat (length p) * size); [exact I3'|exact (rep_typed _ _ _ _ _ R2)|rewrite Z.add_0_r; exact W2|].
    eapply B4; [rewrite (F2_len _ _ _ (blank_typed _ _ (rep_typed _ _ _ _ _ R2))); reflexivity|rewrite (lkeep_len _ _ _ K2); lia|]. intros lz2 K3 V2.
    eapply X2; [rewrite (lkeep_len _ _ _ K3), (lkeep_len _ _ _ K2); lia|eapply lvals_keep; [exact K3|exact A2|exact V1]|exact V2|exact T1'|exact T2'|apply blank_rep; exact R1|apply blank_rep; exact R2|].
    intros r lz3 Hr3 K4.
    (* the elements compared, all locals live at the start are as before *)
    assert (NLn : forall i, In i nl -> ~ live l i).
    { intros i Hi Hli. unfold save_to_locals in E2. destruct (add_locals _ l1) as [n' l2'] eqn:F2. injection E2 as <- _ _.
      destruct (add_locals_ok _ _ _ _ F2 (lext_wf _ _ A1)) as (_ & _ & D3' & _). apply in_rev in Hi. rewrite Forall_forall in D3'.
      apply (D3' _ Hi). eapply lext_live; eauto. }
    assert (K5 : lkeep l lz lz3).
    { eapply lkeep_trans0; [exact K2|]. eapply lkeep_trans0; [eapply lkeep_weaken; [exact A1|exact K3]|].
      destruct K4 as (K4a & K4b). split; auto. intros i Hi. apply K4b. apply live_hide. split; [eapply lext_live; [exact L2|auto]|].
      intros Hx. exact (NLn _ Hx Hi). }
    clear K2 K3 K4 V1 V2 lz1 lz2 I3'.
    rewrite <- (lkeep_get _ _ _ _ K5 La1) in I2. rewrite <- (lkeep_get _ _ _ _ K5 Lb1) in I3. rewrite <- (lkeep_get _ _ _ _ K5 Lb2) in I1.
    assert (K6 : lkeep (hide [oa; ob; lb] l) ls lz3).
    { eapply lkeep_trans0; [exact K1|]. eapply lkeep_hide; [apply lext_refl; auto|exact K5]. }
    assert (LZ3 : length lz3 = length ls) by (exact (lkeep_len _ _ _ K6)).
    clear K5 K1 LZ lz. 
    assert (GOA : (oa < length ls)%nat) by (apply nth_error_Some; congruence).
    assert (GOB : (ob < length ls)%nat) by (apply nth_error_Some; congruence).
    assert (GLB : (lb < length ls)%nat) by (apply nth_error_Some; congruence).
    apply wp_if_bool; intros HR; cbn [firstn skipn].
    2:{ apply wp_nil. wst. apply wp_nil. wst. eapply KEY with (z := z * size); [exact K6|exact I1|].
        split; [intros HX; apply ar_nz in HX; [congruence|exact Hs]|]. intros HX. rewrite EV1, EV2 in HX. apply app_inv_head in HX. injection HX as HX _. apply Hr3 in HX. congruence. }
    subst r. assert (HX : x = y) by (apply Hr3; reflexivity). subst y. clear Hr3.
    eapply wp_lget; [exact I2|]. apply wp_const. eapply wp_b32; [reflexivity|]. apply wp_lset.
    eapply wp_lget; [rewrite lset_other; [exact I3|congruence]|]. apply wp_const. eapply wp_b32; [reflexivity|]. apply wp_lset.
    eapply wp_lget; [rewrite !lset_other by congruence; exact I1|]. apply wp_const. eapply wp_b32; [reflexivity|]. apply wp_ltee.
    set (lz1 := lset (lset (lset lz3 oa _) ob _) lb _).
    assert (J1 : nth_error lz1 lb = Some (VI32 ((z - 1) * size))).
    { unfold lz1. rewrite lset_same; [|rewrite !lset_len; lia]. do 2 f_equal. eapply ar_sub; [symmetry; exact Hr|lia|exact Hs|apply (Nat2Z.is_nonneg (length p))|]. rewrite <- Hr. exact N1. }
    assert (J2 : nth_error lz1 oa = Some (VI32 ((o1 + Z.of_nat (length p) * size + size) mod m32))).
    { unfold lz1. rewrite !lset_other by congruence. apply lset_same. lia. }
    assert (J3 : nth_error lz1 ob = Some (VI32 ((o2 + Z.of_nat (length p) * size + size) mod m32))).
    { unfold lz1. rewrite lset_other by congruence. apply lset_same. rewrite lset_len; lia. }
    assert (K2 : lkeep (hide [oa; ob; lb] l) ls lz1).
    { eapply lkeep_trans0; [exact K6|]. eapply lkeep_trans0; [|apply lkeep_hide_lset; right; cbn; tauto].
      eapply lkeep_trans0; apply lkeep_hide_lset; right; cbn; tauto. }
    replace ((z * size - size) mod m32) with ((z - 1) * size)
      by (symmetry; eapply ar_sub; [symmetry; exact Hr|lia|exact Hs|apply (Nat2Z.is_nonneg (length p))|]; rewrite <- Hr; exact N1).
    clearbody lz1. apply wp_brif_eqz; intros HZ1.
    + apply wp_nil. wst. apply wp_nil. wst. eapply KEY with (z := 0); [exact K2|rewrite J1, HZ1; reflexivity|].
      split; auto. intros _. rewrite EV1, EV2. apply ar_zero in HZ1; [|exact Hs]. rewrite HZ1 in Hr, Hr2.
      destruct r1; [|cbn [length] in Hr; lia]. destruct r2; [reflexivity|cbn [length] in Hr2; lia].
    + wst. 
      exists (z - 1). split; [lia|]. exists lz1, (p ++ [x]), r1, r2. split; [reflexivity|]. split; [exact K2|].
      rewrite <- !app_assoc. split; [exact EV1|]. split; [exact EV2|]. split; [lia|]. assert (HZ2 : z - 1 <> 0) by (intros HX; apply HZ1; rewrite HX; reflexivity). split; [exact HZ2|]. split; [exact J1|].
      rewrite app_length. cbn [length]. rewrite Nat2Z.inj_add. cbn [Z.of_nat Pos.of_succ_nat].
      rewrite J2, J3. assert (HY : 1 <= Z.of_nat (length r1)) by lia. assert (HY2 : 1 <= Z.of_nat (length r2)) by lia.
      destruct M1 as (M1 & M3), M2 as (M2 & M4).
      split; do 2 f_equal; (eapply ar_add; [| | | |eassumption|eassumption]; lia).
Qed.

Theorem wasm_equal_ok t : equal_right t.
Proof.
  induction t using ty_ind'; try (apply list_equal_ok; assumption); intros Hok Him a b l c l' HC Hw La Lb Nd Na Nb.
  - (* no type *)
    cbn in HC. injection HC as <- <-. split; [apply lext_refl; auto|].
    intros js ls k st ws1 ws2 v1 v2 P Q Hn V1 V2 T1. destruct v1; cbn in T1; contradiction.
  - (* int *)
    cbn in HC. injection HC as <- <-. split; [apply lext_refl; auto|].
    intros js ls k st ws1 ws2 v1 v2 P Q Hn V1 V2 T1 T2 R1 R2 HW.
    destruct v1; cbn [rep has_type] in *; try contradiction. destruct v2; cbn [rep has_type] in *; try contradiction. subst.
    destruct a as [|i [|j [|]]]; try discriminate. destruct b as [|i' [|j' [|]]]; try discriminate.
    apply lvals_cons in V1. destruct V1 as (V1a & V1). apply lvals_cons in V1. destruct V1 as (V1b & _).
    apply lvals_cons in V2. destruct V2 as (V2a & V2). apply lvals_cons in V2. destruct V2 as (V2b & _).
    cbn [wasm_equal_int128 lnth nth app].
    eapply wp_lget; [exact V1a|]. eapply wp_lget; [exact V2a|]. apply wp_r64. eapply wp_lget; [exact V1b|]. eapply wp_lget; [exact V2b|]. apply wp_r64.
    cbn [irel]. eapply wp_b32; [reflexivity|].
    set (p := _ =? _). set (q := _ =? _). replace (Z.land (b2z p) (b2z q)) with (b2z (p && q)) by (destruct p, q; reflexivity).
    apply HW; [|apply lkeep_refl]. unfold p, q. rewrite andb_true_iff, !Z.eqb_eq. split; [|intros HX; injection HX as ->; auto].
    intros (H1 & H2). f_equal. apply int_words_inj; auto; lia.
  - (* uint *)
    cbn in HC. injection HC as <- <-. split; [apply lext_refl; auto|].
    intros js ls k st ws1 ws2 v1 v2 P Q Hn V1 V2 T1 T2 R1 R2 HW.
    destruct v1; cbn [rep has_type] in *; try contradiction. destruct v2; cbn [rep has_type] in *; try contradiction. subst.
    destruct a as [|i [|j [|]]]; try discriminate. destruct b as [|i' [|j' [|]]]; try discriminate.
    apply lvals_cons in V1. destruct V1 as (V1a & V1). apply lvals_cons in V1. destruct V1 as (V1b & _).
    apply lvals_cons in V2. destruct V2 as (V2a & V2). apply lvals_cons in V2. destruct V2 as (V2b & _).
    cbn [wasm_equal_int128 lnth nth app].
    eapply wp_lget; [exact V1a|]. eapply wp_lget; [exact V2a|]. apply wp_r64. eapply wp_lget; [exact V1b|]. eapply wp_lget; [exact V2b|]. apply wp_r64.
    cbn [irel]. eapply wp_b32; [reflexivity|].
    set (p := _ =? _). set (q := _ =? _). replace (Z.land (b2z p) (b2z q)) with (b2z (p && q)) by (destruct p, q; reflexivity).
    apply HW; [|apply lkeep_refl]. unfold p, q. rewrite andb_true_iff, !Z.eqb_eq. split; [|intros HX; injection HX as ->; auto].
    intros (H1 & H2). f_equal. apply int_words_inj; auto; lia.
  - (* bool *)
    cbn in HC. injection HC as <- <-. split; [apply lext_refl; auto|].
    intros js ls k st ws1 ws2 v1 v2 P Q Hn V1 V2 T1 T2 R1 R2 HW.
    destruct v1; cbn [rep has_type] in *; try contradiction. destruct v2; cbn [rep has_type] in *; try contradiction. subst.
    destruct a as [|i [|]]; try discriminate. destruct b as [|i' [|]]; try discriminate.
    apply lvals_cons in V1. destruct V1 as (V1a & V1). apply lvals_cons in V2. destruct V2 as (V2a & V2).
    cbn [lnth nth app]. eapply wp_lget; [exact V1a|]. eapply wp_lget; [exact V2a|]. apply wp_r32. cbn [irel].
    apply HW; [|apply lkeep_refl]. destruct b0, b1; cbn; split; congruence.
  - (* principal *)
    cbn [wasm_equal] in HC. eapply compares_bytes; eauto. intros m P v1 v2 ws1 ws2 T1 T2 R1 R2.
    destruct v1; cbn [rep has_type] in *; try contradiction. destruct v2; cbn [rep has_type] in *; try contradiction.
    eexists _, _. split; [exact R1|]. split; [exact R2|]. split; [|congruence]. intros HX. f_equal. apply prin_bytes_inj; auto.
  - discriminate.
  - (* buff *)
    cbn [wasm_equal] in HC. eapply compares_bytes; eauto. intros m P v1 v2 ws1 ws2 T1 T2 R1 R2.
    destruct v1; cbn [rep has_type] in *; try contradiction. destruct v2; cbn [rep has_type] in *; try contradiction.
    eexists _, _. split; [exact R1|]. split; [exact R2|]. split; congruence.
  - cbn [wasm_equal] in HC. eapply compares_bytes; eauto. intros m P v1 v2 ws1 ws2 T1 T2 R1 R2.
    destruct v1; cbn [rep has_type] in *; try contradiction. destruct v2; cbn [rep has_type] in *; try contradiction.
    eexists _, _. split; [exact R1|]. split; [exact R2|]. split; congruence.
  - cbn [wasm_equal] in HC. eapply compares_bytes; eauto. intros m P v1 v2 ws1 ws2 T1 T2 R1 R2.
    destruct v1; cbn [rep has_type] in *; try contradiction. destruct v2; cbn [rep has_type] in *; try contradiction.
    eexists _, _. split; [exact R1|]. split; [exact R2|]. split; [|congruence]. intros HX. f_equal. apply scalars_inj; tauto.
  - (* optional *)
    cbn [wasm_equal] in HC. destruct (wasm_equal t (tl a) (tl b) l) as [c0 l1] eqn:E1. injection HC as <- <-.
    destruct a as [|va a]; [discriminate|]. destruct b as [|vb b]; [discriminate|]. cbn [tl lnth nth length clar2wasm_ty] in *.
    assert (Nd' : NoDup (a ++ b)).
    { cbn [app] in Nd. inversion Nd as [|? ? _ Nd1]; subst. apply NoDup_remove_1 in Nd1. exact Nd1. }
    inversion La as [|? ? La1 La']; subst. inversion Lb as [|? ? Lb1 Lb']; subst.
    destruct (IHt Hok Him _ _ _ _ _ E1 Hw La' Lb' Nd' ltac:(lia) ltac:(lia)) as (X1 & X2).
    split; [exact X1|]. intros js ls k st ws1 ws2 v1 v2 P Q Hn V1 V2 T1 T2 R1 R2 HW.
    apply rep_opt_cases in R1. destruct R1 as (g1 & u1 & -> & _ & R1). apply rep_opt_cases in R2. destruct R2 as (g2 & u2 & -> & _ & R2).
    apply lvals_cons in V1. destruct V1 as (V1a & V1). apply lvals_cons in V2. destruct V2 as (V2a & V2).
    cbn [app]. eapply wp_lget; [exact V1a|]. eapply wp_lget; [exact V2a|]. apply wp_r32. cbn [irel]. apply wp_if_bool; intros HG; cbn [firstn skipn].
    + apply Z.eqb_eq in HG. subst g2. eapply wp_lget; [exact V1a|]. apply wp_if_eqz; intros HG; cbn [firstn skipn].
      * destruct R1 as [(-> & _)|(-> & x & -> & R1)]; [congruence|]. destruct R2 as [(HZ & _)|(_ & y & -> & R2)]; [congruence|].
        rewrite <- (app_nil_r c0). eapply X2; [exact Hn|exact V1|exact V2|exact T1|exact T2|exact R1|exact R2|].
        intros r ls' Hr K. apply wp_nil. wst. apply wp_nil. wst. apply HW.
        -- rewrite Hr. split; congruence.
        -- eapply hide_keep_some; [apply lext_refl; auto| |exact K]. intros i Hi; right; exact Hi.
      * subst g1. destruct R1 as [(_ & ->)|(HZ & _)]; [|lia]. destruct R2 as [(_ & ->)|(HZ & _)]; [|lia].
        apply wp_const. apply wp_nil. wst. apply wp_nil. wst. apply (HW true); [tauto|apply lkeep_refl].
    + apply Z.eqb_neq in HG. apply wp_const. apply wp_nil. wst. apply (HW false); [|apply lkeep_refl]. split; [discriminate|]. intros ->.
      destruct R1 as [(-> & ->)|(-> & x & -> & _)], R2 as [(-> & HX)|(-> & y & HX & _)]; congruence.
  - (* response *)
    cbn [wasm_equal] in HC. set (n := length (clar2wasm_ty t1)) in *.
    destruct (wasm_equal t1 _ _ l) as [c1 l1] eqn:E1. destruct (wasm_equal t2 _ _ l1) as [c2 l2] eqn:E2. injection HC as <- <-.
    destruct a as [|va a]; [discriminate|]. destruct b as [|vb b]; [discriminate|]. cbn [tl lnth nth length clar2wasm_ty] in *.
    rewrite app_length in Na, Nb. fold n in Na, Nb.
    destruct Hok as (Hok1 & Hok2). cbn [equal_implemented] in Him. apply andb_true_iff in Him. destruct Him as (Hi1 & Hi2).
    assert (Nd' : NoDup (a ++ b)).
    { cbn [app] in Nd. inversion Nd as [|? ? _ Nd1]; subst. apply NoDup_remove_1 in Nd1. exact Nd1. }
    inversion La as [|? ? La1 La']; subst. inversion Lb as [|? ? Lb1 Lb']; subst.
    destruct (NoDup_fs _ _ n Nd') as (Nd1 & Nd2 & _).
    destruct (IHt1 Hok1 Hi1 _ _ _ _ _ E1 Hw) as (X1 & X2); auto using Forall_firstn.
    { rewrite firstn_length; lia. } { rewrite firstn_length; lia. }
    destruct (IHt2 Hok2 Hi2 _ _ _ _ _ E2 (lext_wf _ _ X1)) as (Y1 & Y2); auto.
    { apply Forall_skipn. eapply Forall_impl; [|exact La']. intros; eapply lext_live; eauto. }
    { apply Forall_skipn. eapply Forall_impl; [|exact Lb']. intros; eapply lext_live; eauto. }
    { rewrite skipn_length; lia. } { rewrite skipn_length; lia. }
    split; [eapply lext_trans; eauto|]. intros js ls k st ws1 ws2 v1 v2 P Q Hn V1 V2 T1 T2 R1 R2 HW.
    apply rep_resp_cases in R1. destruct R1 as (g1 & u1 & u1' & -> & W1 & _ & R1). apply rep_resp_cases in R2. destruct R2 as (g2 & u2 & u2' & -> & W2 & _ & R2).
    apply lvals_cons in V1. destruct V1 as (V1a & V1). apply lvals_cons in V2. destruct V2 as (V2a & V2).
    apply lvals_split in V1. apply lvals_split in V2. rewrite <- (F2_len _ _ _ W1) in V1. rewrite <- (F2_len _ _ _ W2) in V2. fold n in V1, V2.
    destruct V1 as (V1 & V1'), V2 as (V2 & V2'). pose proof (lext_len _ _ Y1).
    cbn [app]. eapply wp_lget; [exact V1a|]. eapply wp_lget; [exact V2a|]. apply wp_r32. cbn [irel]. apply wp_if_bool; intros HG; cbn [firstn skipn].
    + apply Z.eqb_eq in HG. subst g2. eapply wp_lget; [exact V1a|]. apply wp_if_eqz; intros HG; cbn [firstn skipn].
      * destruct R1 as [(-> & x & -> & R1)|(-> & _)]; [|congruence]. destruct R2 as [(_ & y & -> & R2)|(HZ & _)]; [|congruence].
        rewrite <- (app_nil_r c1). eapply X2; [lia|exact V1|exact V2|exact T1|exact T2|exact R1|exact R2|].
        intros r ls' Hr K. apply wp_nil. wst. apply wp_nil. wst. apply HW.
        -- rewrite Hr. split; congruence.
        -- eapply hide_keep_some; [apply lext_refl; auto| |exact K]. intros i Hi; right. eapply in_firstn; exact Hi.
      * subst g1. destruct R1 as [(HZ & _)|(_ & x & -> & R1)]; [lia|]. destruct R2 as [(HZ & _)|(_ & y & -> & R2)]; [lia|].
        rewrite <- (app_nil_r c2). eapply Y2; [lia|exact V1'|exact V2'|exact T1|exact T2|exact R1|exact R2|].
        intros r ls' Hr K. apply wp_nil. wst. apply wp_nil. wst. apply HW.
        -- rewrite Hr. split; congruence.
        -- eapply hide_keep_some; [exact X1| |exact K]. intros i Hi; right. eapply in_skipn; exact Hi.
    + apply Z.eqb_neq in HG. apply wp_const. apply wp_nil. wst. apply (HW false); [|apply lkeep_refl]. split; [discriminate|]. intros ->.
      destruct R1 as [(-> & x & -> & _)|(-> & x & -> & _)], R2 as [(-> & y & HX & _)|(-> & y & HX & _)]; congruence.
  - (* tuple *)
    rewrite ty_ok_tuple in Hok. destruct Hok as (Hne & _ & Hok). cbn [equal_implemented] in Him.
    destruct fs as [|[k0 t0] [|f fs]]; [congruence| |].
    + cbn [wasm_equal] in HC. inversion H as [|? ? Ht _]; subst. destruct Hok as (Hok & _). cbn [forallb snd] in *. rewrite andb_true_r in Him.
      cbn [clar2wasm_ty flat_map snd] in Na, Nb. rewrite app_nil_r in Na, Nb.
      destruct (Ht Hok Him _ _ _ _ _ HC Hw La Lb Nd Na Nb) as (X1 & X2). split; [exact X1|].
      intros js ls k st ws1 ws2 v1 v2 P Q Hn V1 V2 T1 T2 R1 R2 HW.
      destruct v1 as [| | | | | | | | | | | | |vs1]; cbn [rep has_type] in *; try contradiction. destruct v2 as [| | | | | | | | | | | | |vs2]; cbn [rep has_type] in *; try contradiction.
      destruct vs1 as [|[k1 v1] [|? vs1]]; try contradiction; [|destruct T1 as (_ & _ & T1); contradiction].
      destruct vs2 as [|[k2 v2] [|? vs2]]; try contradiction; [|destruct T2 as (_ & _ & T2); contradiction].
      destruct T1 as (<- & T1 & _). destruct T2 as (<- & T2 & _).
      destruct R1 as (u1 & u1' & _ & -> & R1 & ->). destruct R2 as (u2 & u2' & _ & -> & R2 & ->). rewrite app_nil_r in *.
      eapply X2; [exact Hn|exact V1|exact V2|exact T1|exact T2|exact R1|exact R2|]. intros r ls' Hr K. apply HW; [|exact K].
      rewrite Hr. split; congruence.
    + set (fs' := (k0, t0) :: f :: fs) in *.
      assert (HC' : (let '(res, l) := borrow T32 l in let '(body, l) := equal_fields res fs' a b l in ([Block 0 0 body; LGet res], release T32 res l)) = (c, l')) by exact HC.
      clear HC. destruct (borrow T32 l) as [res l1] eqn:E1. destruct (equal_fields res fs' a b l1) as [body l2] eqn:E2.
      assert (Hc := f_equal fst HC'). assert (Hl' := f_equal snd HC'). cbn [fst snd] in Hc, Hl'. subst c l'. clear HC'.
      destruct (borrow_ok _ _ _ _ E1 Hw) as (A1 & A2 & A3).
      assert (NR : ~ In res (a ++ b)).
      { rewrite in_app_iff. rewrite Forall_forall in La, Lb. intros [Hx|Hx]; apply A3; auto. }
      destruct (fields_equal_ok res fs' H Hok Him a b l1 body l2 E2 (lext_wf _ _ A1)) as (X1 & X2); auto.
      { eapply Forall_impl; [|exact La]. intros; eapply lext_live; eauto. }
      { eapply Forall_impl; [|exact Lb]. intros; eapply lext_live; eauto. }
      assert (L2 : lext l l2) by (eapply lext_trans; eauto).
      split; [apply release_ext; [exact L2|exact (lext_live _ _ _ X1 A2)|exact A3]|].
      intros js ls k st ws1 ws2 v1 v2 P Q Hn V1 V2 T1 T2 R1 R2 HW.
      change (llen (release T32 res l2)) with (llen l2) in Hn.
      destruct v1 as [| | | | | | | | | | | | |vs1]; try contradiction. destruct v2 as [| | | | | | | | | | | | |vs2]; try contradiction.
      assert (HH : forall ls', lkeep (hide (res :: b) l1) ls ls' -> lkeep (hide b l) ls ls').
      { intros ls' K. eapply lkeep_hide2; [exact A1| |exact K]. intros i [<-|Hi] Hli; [contradiction|exact Hi]. }
      cbn [app]. apply wp_block. cbn [cstack firstn skipn]. unfold setstk; cbn [clocals cstore].
      rewrite <- (app_nil_r body). eapply X2; [exact Hn|exact V1|exact V2|exact T1|exact T2|exact R1|exact R2| |].
      * intros ls' K HV S1 _. apply wp_nil. wst. eapply wp_lget; [apply S1; unfold fs'; discriminate|]. apply (HW true); [|auto]. split; congruence.
      * intros ls' K HV S1. wst. eapply wp_lget; [exact S1|]. apply (HW false); [|auto]. split; congruence.
Qed.
End Code.
