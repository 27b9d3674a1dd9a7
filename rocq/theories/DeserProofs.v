(** * Correctness of the emitted deserialization code (proof support) *)
From Coq Require Import ZArith String Ascii List Bool Lia Sorted.
Import ListNotations.
From Verif Require Import Wasm Std StdEnv WasmLogic WasmTac Spec Mem MemFacts Bytes SpecBytes SpecUtf8 Clar Rep RepFacts Emit CallProofs EmitFacts EmitProofs
  ReadProofs Equal EqualProofs Utf8Proofs Utf8Dec ConvProofs NameProofs NameSearch BeProofs SpecSer SpecSkip SkipProofs SerProofs PropSer SpecDeser Deser.
Open Scope string_scope.
Open Scope list_scope.
Open Scope Z_scope.

(** ** Room for the values read *)
Fixpoint room (t : ty) : Z :=
  match t with
  | TPrin | TTrait _ => 22
  | TUtf8 n => 4 * n
  | TList n t => n * (get_type_size t + room t)
  | TOpt t => room t
  | TResp t e => room t + room e
  | TTuple fs => fold_right (fun f n => room (snd f) + n) 0 fs
  | _ => 0
  end.
Lemma room_nonneg t : ty_ok t -> 0 <= room t.
Proof.
  induction t using ty_ind'; intros Hok; cbn [room]; try (cbn in Hok; lia).
  - destruct Hok as (Hn & Hok). specialize (IHt Hok). pose proof (size_nonneg t). nia.
  - apply IHt. exact Hok.
  - destruct Hok. specialize (IHt1 ltac:(assumption)). specialize (IHt2 ltac:(assumption)). lia.
  - rewrite ty_ok_tuple in Hok. destruct Hok as (_ & _ & Hok). induction H as [|[k t] fs Ht H IH]; cbn [fold_right snd]; [lia|].
    cbn [fields_ok] in Hok. destruct Hok as (H1 & H2). specialize (Ht H1). specialize (IH H2). cbn [snd] in Ht. lia.
Qed.
(** the frame allocated for the word's result is large enough *)
Lemma room_frame t : ty_ok t -> get_type_size t + room t <= get_type_in_memory_size t true.
Proof.
  induction t using ty_ind'; intros Hok; cbn [room get_type_size get_type_in_memory_size]; try (cbn in Hok; lia).
  - destruct Hok as (Hn & Hok). specialize (IHt Hok). nia.
  - specialize (IHt Hok). lia.
  - destruct Hok. specialize (IHt1 ltac:(assumption)). specialize (IHt2 ltac:(assumption)). lia.
  - rewrite ty_ok_tuple in Hok. destruct Hok as (_ & _ & Hok). induction H as [|[k t] fs Ht H IH]; cbn [fold_right snd]; [lia|].
    cbn [fields_ok] in Hok. destruct Hok as (H1 & H2). specialize (Ht H1). specialize (IH H2). cbn [snd] in Ht. lia.
Qed.

(** ** Bytes *)
Lemma be_bytes_S n z : be_bytes (S n) z = be_bytes n (z / 256) ++ [z mod 256].
Proof. unfold be_bytes. cbn [le_bytes rev]. reflexivity. Qed.
Lemma be_bytes_value bs : Forall (fun b => 0 <= b < 256) bs -> be_bytes (length bs) (be_value bs) = bs.
Proof.
  induction bs as [|b bs IH] using rev_ind; intros H; [reflexivity|]. apply Forall_app in H as (H1 & H2). inversion H2; subst.
  rewrite app_length. cbn [length]. replace (length bs + 1)%nat with (S (length bs)) by lia. rewrite be_bytes_S.
  rewrite be_value_app. cbn [length]. change (256 ^ Z.of_nat 1) with 256. change (be_value [b]) with (256 * 0 + b). rewrite Z.mul_0_r, Z.add_0_l.
  rewrite Z.div_add_l by lia. rewrite (Z.div_small b) by lia. rewrite Z.add_0_r, IH by auto. f_equal. f_equal.
  rewrite Z.add_comm, Z.mod_add by lia. apply Z.mod_small. lia.
Qed.

Lemma swap_all m p : swizzle (ldn m p 16) swap_mask = be_value (bytes_at m p 16).
Proof.
  unfold swizzle, swap_mask.
  transitivity (vjoin 16 (fun i => rd m (p + (15 - i))) 0).
  - assert (H : forall n f g i, (forall j, 0 <= j < Z.of_nat n -> f (i + j) = g (i + j)) -> vjoin n f i = vjoin n g i).
    { induction n as [|n IH]; intros f g i H; [reflexivity|]. cbn [vjoin]. f_equal.
      - specialize (H 0). rewrite Z.add_0_r in H. apply H. lia.
      - f_equal. apply IH. intros j Hj. replace (i + 1 + j) with (i + (1 + j)) by lia. apply H. lia. }
    apply H. intros j Hj. rewrite Z.add_0_l. change (Z.of_nat 16) with 16 in Hj.
    assert (Hb : vbyte 0x000102030405060708090a0b0c0d0e0f j = 15 - j).
    { assert (HC : j = 0 \/ j = 1 \/ j = 2 \/ j = 3 \/ j = 4 \/ j = 5 \/ j = 6 \/ j = 7 \/ j = 8 \/ j = 9 \/ j = 10 \/ j = 11 \/ j = 12 \/ j = 13 \/ j = 14 \/ j = 15) by lia.
      repeat destruct HC as [->|HC]; try reflexivity. subst; reflexivity. }
    rewrite Hb. destruct (Z.ltb_spec (15 - j) 16); [|lia]. apply vbyte_ldn. lia.
  - cbn [vjoin bytes_at]. unfold be_value. cbn [fold_left]. cbn [Z.add Z.sub Z.opp Z.pos_sub Pos.add Pos.succ Pos.add_carry Pos.pred_double Z.double Z.succ_double Z.pred_double].
    rewrite <- !Z.add_assoc. cbn [Z.add Pos.add Pos.succ Pos.add_carry]. rewrite !Z.add_0_r. ring.
Qed.

(** two sequences of bytes at the same address *)
Lemma holds_common m a xs : forall ys, holds m a xs -> holds m a ys -> exists r s, xs ++ r = ys ++ s.
Proof.
  revert a. induction xs as [|x xs IH]; intros a ys H1 H2; [exists ys, []; rewrite app_nil_r; reflexivity|].
  destruct ys as [|y ys]; [exists [], (x :: xs); rewrite app_nil_r; reflexivity|].
  apply holds_cons in H1 as (A1 & _ & _ & _ & _ & A2). apply holds_cons in H2 as (B1 & _ & _ & _ & _ & B2).
  destruct (IH _ _ A2 B2) as (r & s & E). exists r, s. cbn [app]. congruence.
Qed.
Lemma holds_at m a n : 0 <= a -> 0 <= n -> a + n <= msize m <= m32 -> holds m a (bytes_at m a (Z.to_nat n)).
Proof. intros H1 H2 H3. apply holds_intro; lia. Qed.

(** ** What is to be read *)
Definition want (t : ty) (m : mem) (a e : Z) (o : option (value * list Z)) : Prop :=
  match o with Some (v, bs) => readable t v bs /\ holds m a bs /\ a + zlen bs <= e | None => exact_type t \/ exists bs, miskeyed t bs /\ holds m a bs /\ a + zlen bs <= e end.
Definition agrees (o : option (value * list Z)) (v : value) (bs : list Z) : Prop :=
  match o with Some (v', bs') => v = v' /\ bs = bs' | None => True end.

Definition base_type (t : ty) : Prop := match t with TOpt _ | TResp _ _ | TList _ _ | TTuple _ | TNo => False | _ => True end.
Lemma base_readable t v bs : base_type t -> ty_ok t -> readable t v bs -> bs = sip005 v /\ clarity_value v.
Proof.
  destruct t; cbn [base_type]; try contradiction; intros _ Hok; destruct v; cbn [readable]; try contradiction; intros H;
    repeat match goal with H : _ /\ _ |- _ => destruct H end; split; auto; cbn [clarity_value]; auto; cbn [ty_ok] in Hok; unfold max_value_size in Hok.
  - split; [lia|assumption].
  - split; [lia|]. eapply Forall_impl; [|eassumption]. unfold clarity_ascii, byte. cbv beta. intros; lia.
  - split; [|assumption]. unfold zlen in *.
    assert (K : (length (utf8 cs) <= 4 * length cs)%nat).
    { clear. induction cs as [|c cs IH]; [cbn; lia|]. rewrite utf8_cons, app_length. pose proof (utf8_char_len c). cbn [length]. lia. }
    lia.
Qed.
Lemma base_unique t m a v bs v' bs' : base_type t -> ty_ok t -> readable t v bs -> readable t v' bs' -> holds m a bs -> holds m a bs' -> v = v' /\ bs = bs'.
Proof.
  intros Hb Hok H1 H2 H3 H4. destruct (base_readable _ _ _ Hb Hok H1) as (E1 & C1). destruct (base_readable _ _ _ Hb Hok H2) as (E2 & C2).
  destruct (holds_common _ _ _ _ H3 H4) as (r & s & E). rewrite E1, E2 in E. destruct (prefix_free v v' r s C1 C2 E) as (D & _).
  assert (v = v') as ->; [|split; congruence].
  destruct t; cbn [base_type] in Hb; try contradiction; destruct v; cbn [readable] in H1; try contradiction; destruct v'; cbn [readable] in H2; try contradiction; cbn [as_data] in D; try congruence.
  destruct H1 as (<- & _), H2 as (<- & _). congruence.
Qed.
Lemma base_agrees t m a e o v bs : base_type t -> ty_ok t -> want t m a e o -> readable t v bs -> holds m a bs -> agrees o v bs.
Proof.
  intros Hb Hok Hw H1 H2. destruct o as [[v' bs']|]; [|exact I]. destruct Hw as (A & B & _). exact (base_unique _ _ _ _ _ _ _ Hb Hok H1 A H2 B).
Qed.

(** ** The tables of keys *)
Section Tab.
Variable tab : list string -> Z.
Definition table_ok (m : mem) (K : Z -> Prop) (ks : list string) : Prop :=
  let names := map chars ks in
  0 <= tab ks < m32 /\ holds m (tab ks) (key_table (tab ks) names) /\ inside K (tab ks) (zlen (key_table (tab ks) names)) /\
  Forall (fun s => s <> [] /\ zlen s < 256) names /\ StronglySorted lex_lt names.
Fixpoint tables (m : mem) (K : Z -> Prop) (t : ty) : Prop :=
  match t with
  | TOpt t | TList _ t => tables m K t
  | TResp t e => tables m K t /\ tables m K e
  | TTuple fs => table_ok m K (map fst fs) /\ (fix go (fs : list (string * ty)) := match fs with [] => True | (_, t) :: fs => tables m K t /\ go fs end) fs
  | _ => True
  end.
Definition tables_fields m K : list (string * ty) -> Prop :=
  fix go (fs : list (string * ty)) := match fs with [] => True | (_, t) :: fs => tables m K t /\ go fs end.
Lemma tables_frame m m' (K : Z -> Prop) t : msize m' = msize m -> (forall x, K x -> rd m' x = rd m x) -> tables m K t -> tables m' K t.
Proof.
  intros Hs Hr. induction t using ty_ind'; cbn [tables]; try (intros; exact I); try assumption.
  - intros (A & B); auto.
  - intros (A & B). split.
    + clear - A Hs Hr. destruct A as (A1 & A2 & A3 & A4). split; [exact A1|]. split; [|split; [exact A3|exact A4]].
      eapply holds_ext; [exact Hs| |exact A2]. intros x Hx. apply Hr. apply A3. exact Hx.
    + clear A. induction H as [|[k t] fs Ht H IH]; [auto|]. destruct B as (B & C). split; [exact (Ht B)|exact (IH C)].
Qed.
Lemma only_tables m m' (K : Z -> Prop) t a n : only_changes m m' a n -> off_limits K a n -> tables m K t -> tables m' K t.
Proof. intros H HK. apply tables_frame; [eapply only_size; eauto|]. intros x Hx. apply H. apply HK in Hx. lia. Qed.

Section Code.
Context {HS : Type} (E : env HS) (HE : has_std E).
Notation wp := (wp E).

(** the input [a, e), the area for results [r, r + n) *)
Definition area (m : mem) (a e r n : Z) : Prop :=
  0 <= a /\ a <= e /\ e < 2 ^ 31 /\ e < msize m /\ msize m < m32 /\ 0 <= r /\ 0 <= n /\ r + n <= msize m /\ (e <= r \/ r + n <= a).

Definition succeeded (l : lst) (ol rl : nat) ls ls' m m' (a e r n : Z) o t v bs ws r' : Prop :=
  lkeep (hide [ol; rl] l) ls ls' /\ nth_error ls' ol = Some (VI32 (a + zlen bs)) /\ nth_error ls' rl = Some (VI32 r') /\
  r <= r' <= r + n /\ only_changes m m' r (r' - r) /\ readable t v bs /\ holds m a bs /\ a + zlen bs <= e /\ agrees o v bs /\
  rep m' (fun x => a <= x < a + zlen bs \/ r <= x < r') t v ws.
Definition failed (l : lst) (ol rl : nat) ls ls' m m' (r n : Z) (o : option (value * list Z)) t ws : Prop :=
  o = None /\ lkeep (hide [ol; rl] l) ls ls' /\ (exists x, nth_error ls' ol = Some (VI32 x)) /\ only_changes m m' r n /\ Forall2 wtyped (clar2wasm_ty t) ws.

Definition deserializes (t : ty) (c : list instr) (l l' : lst) (ol el rl : nat) : Prop :=
  lext l l' /\
  forall js ls k (st : store HS) a e r K o Q,
    nth_error ls ol = Some (VI32 a) -> nth_error ls el = Some (VI32 e) -> nth_error ls rl = Some (VI32 r) -> (llen l' <= length ls)%nat ->
    area (smem st) a e r (room t) -> tables (smem st) K t -> off_limits K r (room t) -> want t (smem st) a e o ->
    (forall ls' m' v bs ws r', succeeded l ol rl ls ls' (smem st) m' a e r (room t) o t v bs ws r' ->
       wp js (mkcfg ls' (rev ws ++ VI32 1 :: k) (with_mem st m')) Q) ->
    (forall ls' m' ws, failed l ol rl ls ls' (smem st) m' r (room t) o t ws ->
       wp js (mkcfg ls' (rev ws ++ VI32 0 :: k) (with_mem st m')) Q) ->
    wp (c ++ js) (mkcfg ls k st) Q.
Definition deser_right (t : ty) : Prop := ty_ok t -> forall l ol el rl c l', deserialize_from_memory tab t ol el rl l = (c, l') ->
  lwf l -> live l ol -> live l el -> live l rl -> ol <> el -> ol <> rl -> el <> rl -> deserializes t c l l' ol el rl.

Lemma wp_addm a b js ls k (st : store HS) Q : wp js (mkcfg ls (VI32 ((a + b) mod m32) :: k) st) Q ->
  wp (B32 Add :: js) (mkcfg ls (VI32 b :: VI32 a :: k) st) Q.
Proof. intros HW. eapply wp_b32; [reflexivity|]. exact HW. Qed.
Lemma wp_byte_at off a js ls k (st : store HS) Q : 0 <= a + off -> a + off + 1 <= msize (smem st) ->
  wp js (mkcfg ls (VI32 (rd (smem st) (a + off)) :: k) st) Q -> wp (Load L32_8u off :: js) (mkcfg ls (VI32 a :: k) st) Q.
Proof. intros H1 H2 HW. apply wp_load; [cbn [ldbytes]; lia|]. cbn [ldval ldbytes]. rewrite ldn1. exact HW. Qed.
Lemma wp_bump x n a js ls k (st : store HS) Q : nth_error ls x = Some (VI32 a) -> 0 <= a + n < m32 ->
  wp js (mkcfg (lset ls x (VI32 (a + n))) k st) Q -> wp (bump x n ++ js) (mkcfg ls k st) Q.
Proof. intros H1 H2 HW. unfold bump. cbn [app]. eapply wp_lget; [exact H1|]. apply wp_const. apply wp_add32; [exact H2|]. apply wp_lset. exact HW. Qed.

Lemma keep_ol l ol rl ls v : lkeep (hide [ol; rl] l) ls (lset ls ol v).
Proof. apply lkeep_hide_lset. right. cbn. auto. Qed.
Lemma keep_rl l ol rl ls v : lkeep (hide [ol; rl] l) ls (lset ls rl v).
Proof. apply lkeep_hide_lset. right. cbn. auto. Qed.
Lemma keep_new l ol rl ls i v : (llen l <= i)%nat -> lkeep (hide [ol; rl] l) ls (lset ls i v).
Proof. intros H. apply lkeep_hide_lset. left. intros HX. apply live_lt in HX. lia. Qed.
Lemma keep_new2 l ol rl ls ls' i v : (llen l <= i)%nat \/ i = ol \/ i = rl -> lkeep (hide [ol; rl] l) ls ls' -> lkeep (hide [ol; rl] l) ls (lset ls' i v).
Proof.
  intros H K. eapply lkeep_trans0; [exact K|]. destruct H as [H|[-> | ->]]; [apply keep_new; exact H|apply keep_ol|apply keep_rl].
Qed.
Lemma tag_of t m a v bs : holds m a bs -> bs = t :: v -> rd m a = t.
Proof. intros H ->. apply holds_cons in H. tauto. Qed.

Lemma zeros_typed t : Forall2 wtyped (clar2wasm_ty t) (map zero_of (clar2wasm_ty t)).
Proof. induction (clar2wasm_ty t) as [|x xs IH]; cbn [map]; constructor; auto. destruct x; cbn; lia. Qed.

(** *** Integers *)
Lemma int_readable m a (s : bool) : 0 <= a -> a + 17 <= msize m <= m32 -> rd m a = (if s then 0 else 1) ->
  let u := be_value (bytes_at m (a + 1) 16) in
  let z := if s then (if u <? 2 ^ 127 then u else u - 2 ^ 128) else u in
  0 <= u < 2 ^ 128 /\ z mod 2 ^ 128 = u /\ - 2 ^ 127 <= z < 2 ^ 128 /\ (s = true -> z < 2 ^ 127) /\ (s = false -> z = u) /\
  holds m a ((if s then 0 else 1) :: be_bytes 16 u).
Proof.
  intros Ha Hm Ht u z. pose proof (be_value_bound _ (bytes_at_byte m (a + 1) 16)) as Hu. rewrite length_bytes_at in Hu. change (256 ^ Z.of_nat 16) with (2 ^ 128) in Hu. fold u in Hu.
  split; [exact Hu|]. assert (Hz : z mod 2 ^ 128 = u /\ - 2 ^ 127 <= z < 2 ^ 128 /\ (s = true -> z < 2 ^ 127) /\ (s = false -> z = u)).
  { unfold z. destruct s; [destruct (Z.ltb_spec u (2 ^ 127))|].
    - rewrite Z.mod_small by lia. repeat split; try lia; congruence.
    - split; [|split; [|split; [|congruence]]]; [|lia|lia]. replace (u - 2 ^ 128) with (u + (-1) * 2 ^ 128) by lia. rewrite Z.mod_add, Z.mod_small by lia. reflexivity.
    - rewrite Z.mod_small by lia. repeat split; try lia; congruence. }
  destruct Hz as (Z1 & Z2 & Z3 & Z4). split; [exact Z1|]. split; [exact Z2|]. split; [exact Z3|]. split; [exact Z4|].
  assert (HB : be_bytes 16 u = bytes_at m (a + 1) 16).
  { unfold u. rewrite <- (length_bytes_at m (a + 1) 16) at 1. apply be_bytes_value. apply bytes_at_byte. }
  rewrite HB, <- Ht. pose proof (holds_intro m a 17 Ha ltac:(lia) ltac:(lia)) as H. rewrite (bytes_at_S m a 16) in H. exact H.
Qed.
Lemma z_words z u : z mod 2 ^ 128 = u -> 0 <= u -> (u / 2 ^ (64 * 0)) mod m64 = z mod 2 ^ 64 /\ (u / 2 ^ (64 * 1)) mod m64 = z / 2 ^ 64 mod 2 ^ 64.
Proof.
  intros <- Hu. change m64 with (2 ^ 64). change (2 ^ (64 * 0)) with 1. change (64 * 1) with 64. rewrite Z.div_1_r.
  change (2 ^ 128) with (2 ^ 64 * 2 ^ 64). rewrite Z.rem_mul_r by lia. split.
  - rewrite Z.mul_comm, Z.mod_add by lia. apply Z.mod_mod. lia.
  - rewrite Z.mul_comm, Z.div_add, Z.div_small by (try apply Z.mod_pos_bound; lia). rewrite Z.add_0_l. apply Z.mod_mod. lia.
Qed.

Lemma deser_int_ok (s : bool) : deser_right (if s then TInt else TUInt).
Proof.
  intros Hok l ol el rl c l' H Hw Ho He Hr D1 D2 D3.
  assert (H' : deser_int (if s then 0 else 1) ol el l = (c, l')) by (destruct s; exact H). clear H. rename H' into H. unfold deser_int in H. rewrite add_one in H.
  assert (Hc := f_equal fst H). assert (Hl' := f_equal snd H). cbn [fst snd] in Hc, Hl'. subst c l'. clear H.
  split; [apply more_ext; auto|]. intros js ls k st a e r K o Q Go Ge Gr Hn (A1 & A2 & A3 & A4 & A5 & A6 & A7 & A8 & A9) _ _ HW S F.
  rewrite llen_more in Hn. cbn [length] in Hn. apply live_lt in Ho, He, Hr. 
  assert (Hty : clar2wasm_ty (if s then TInt else TUInt) = [T64; T64]) by (destruct s; reflexivity).
  assert (Hb : base_type (if s then TInt else TUInt)) by (destruct s; exact I).
  assert (FAIL : o = None -> wp js (mkcfg ls (VI64 0 :: VI64 0 :: VI32 0 :: k) st) Q).
  { intros Hno. specialize (F ls (smem st) [VI64 0; VI64 0]). rewrite with_mem_same in F. apply F. split; [exact Hno|]. split; [apply lkeep_refl|]. split; [eauto|]. split; [apply only_refl|].
    rewrite Hty. repeat constructor; cbn; lia. }
  assert (NEED : o = None \/ (a + 17 <= e /\ rd (smem st) a = if s then 0 else 1)).
  { destruct o as [[v bs]|]; [right|left; reflexivity]. destruct HW as (W1 & W2 & W3). destruct s, v; cbn [readable] in W1; try contradiction; destruct W1 as (W1 & ->);
      cbn [sip005] in *; rewrite zlen_cons, zlen_be in W3; (split; [lia|]); eapply tag_of; [exact W2|reflexivity|exact W2|reflexivity]. }
  cbn [app]. eapply wp_lget; [exact Go|]. apply wp_const. apply wp_add32; [lia|]. eapply wp_lget; [exact Ge|]. apply wp_r32. cbn [irel].
  apply wp_if_bool; intros Hc; cbn [firstn skipn].
  - destruct NEED as [Hno|(N1 & _)]; [|lia]. apply wp_const. apply wp_const. apply wp_const. apply wp_nil. wst. apply FAIL. exact Hno.
  - eapply wp_lget; [exact Go|]. apply wp_byte_at; [lia|lia|]. rewrite Z.add_0_r. apply wp_const. apply wp_r32. cbn [irel].
    apply wp_if_bool; intros Hc2; cbn [firstn skipn].
    2:{ destruct NEED as [Hno|(_ & N2)]; [|rewrite N2, Z.eqb_refl in Hc2; discriminate]. apply wp_const. apply wp_const. apply wp_const. apply wp_nil. wst. apply wp_nil. wst. apply FAIL. exact Hno. }
    apply Z.eqb_eq in Hc2. destruct (int_readable (smem st) a s ltac:(lia) ltac:(lia) Hc2) as (U1 & U2 & U3 & U4 & U5 & U6).
    set (u := be_value (bytes_at (smem st) (a + 1) 16)) in *. set (z := if s then if u <? 2 ^ 127 then u else u - 2 ^ 128 else u) in *. clearbody z.
    destruct (z_words z u U2 ltac:(lia)) as (Z1 & Z2).
    cbn [app]. apply wp_const. eapply wp_lget; [exact Go|]. apply wp_load; [cbn [ldbytes]; lia|]. cbn [ldval ldbytes].
    apply wp_const. eapply wp_step1; [reflexivity|reflexivity|]. unfold setstk. cbn [clocals cstack cstore]. rewrite swap_all. fold u.
    apply wp_ltee. eapply wp_step1; [reflexivity|reflexivity|]. unfold setstk. cbn [clocals cstack cstore].
    eapply wp_lget; [lk|]. eapply wp_step1; [reflexivity|reflexivity|]. unfold setstk. cbn [clocals cstack cstore].
    change (wp (bump ol 17 ++ []) (mkcfg (lset ls (llen l) (VV128 u)) [VI64 (u / 2 ^ (64 * 1) mod m64); VI64 (u / 2 ^ (64 * 0) mod m64); VI32 1] st)
      (qblock E 3 [] [] (qblock E 3 k js Q))).
    eapply wp_bump; [lk|lia|]. apply wp_nil. wst. apply wp_nil. wst. rewrite Z1, Z2.
    set (v := if s then CInt z else CUInt z).
    assert (R1 : readable (if s then TInt else TUInt) v ((if s then 0 else 1) :: be_bytes 16 u)).
    { unfold v. destruct s; cbn [readable sip005]; [split; [specialize (U4 eq_refl); lia|rewrite U2; reflexivity]|specialize (U5 eq_refl); subst z; split; [lia|reflexivity]]. }
    specialize (S (lset (lset ls (llen l) (VV128 u)) ol (VI32 (a + 17))) (smem st) v ((if s then 0 else 1) :: be_bytes 16 u) [VI64 (z mod 2 ^ 64); VI64 (z / 2 ^ 64 mod 2 ^ 64)] r).
    rewrite with_mem_same in S. apply S. clear S. unfold succeeded. rewrite zlen_cons, zlen_be. change (1 + Z.of_nat 16) with 17.
    split; [apply keep_new2; [auto|]; apply keep_new; lia|]. split; [lk|]. split; [lk|]. split; [lia|]. split; [apply only_refl|].
    split; [exact R1|]. split; [exact U6|]. split; [lia|]. split; [eapply base_agrees; eauto|]. unfold v. destruct s; reflexivity.
Qed.
(** *** Booleans *)
Lemma deser_bool_ok : deser_right TBool.
Proof.
  intros Hok l ol el rl c l' H Hw Ho He Hr D1 D2 D3. cbn [deserialize_from_memory] in H. unfold deser_bool in H. rewrite add_one in H.
  assert (Hc := f_equal fst H). assert (Hl' := f_equal snd H). cbn [fst snd] in Hc, Hl'. subst c l'. clear H.
  split; [apply more_ext; auto|]. intros js ls k st a e r K o Q Go Ge Gr Hn (A1 & A2 & A3 & A4 & A5 & A6 & A7 & A8 & A9) _ _ HW S F.
  rewrite llen_more in Hn. cbn [length] in Hn. apply live_lt in Ho, He, Hr.
  assert (FAIL : forall ls', o = None -> lkeep (hide [ol; rl] l) ls ls' -> nth_error ls' ol = Some (VI32 a) -> wp js (mkcfg ls' (VI32 0 :: VI32 0 :: k) st) Q).
  { intros ls' Hno HK HO. specialize (F ls' (smem st) [VI32 0]). rewrite with_mem_same in F. apply F. split; [exact Hno|]. split; [exact HK|]. split; [eauto|]. split; [apply only_refl|].
    repeat constructor; cbn; lia. }
  assert (NEED : o = None \/ (a + 1 <= e /\ (rd (smem st) a = 3 \/ rd (smem st) a = 4))).
  { destruct o as [[v bs]|]; [right|left; reflexivity]. destruct HW as (W1 & W2 & W3). destruct v; cbn [readable] in W1; try contradiction. subst bs.
    cbn [sip005] in *. change (zlen [if b then 3 else 4]) with 1 in W3. split; [lia|]. destruct b; [left|right]; (eapply tag_of; [exact W2|reflexivity]). }
  assert (DONE : forall b : bool, a + 1 <= e -> rd (smem st) a = (if b then 3 else 4) ->
     wp js (mkcfg (lset (lset ls (llen l) (VI32 (rd (smem st) a))) ol (VI32 (a + 1))) (VI32 (if b then 1 else 0) :: VI32 1 :: k) st) Q).
  { intros b Hb Hrd. specialize (S (lset (lset ls (llen l) (VI32 (rd (smem st) a))) ol (VI32 (a + 1))) (smem st) (CBool b) [if b then 3 else 4] [VI32 (if b then 1 else 0)] r).
    rewrite with_mem_same in S. apply S. unfold succeeded. change (zlen [if b then 3 else 4]) with 1.
    assert (HH : holds (smem st) a [if b then 3 else 4]). { rewrite <- Hrd. pose proof (holds_intro (smem st) a 1 ltac:(lia) ltac:(lia) ltac:(lia)) as HX. exact HX. }
    split; [apply keep_new2; [auto|]; apply keep_new; lia|]. split; [lk|]. split; [lk|]. split; [lia|]. split; [apply only_refl|].
    split; [reflexivity|]. split; [exact HH|]. split; [lia|]. split; [eapply base_agrees; eauto; [exact I|reflexivity]|]. reflexivity. }
  cbn [app]. apply wp_block. wst. eapply wp_lget; [exact Go|]. eapply wp_lget; [exact Ge|]. apply wp_r32. cbn [irel]. apply wp_if_bool; intros Hc; cbn [firstn skipn].
  { destruct NEED as [Hno|(N1 & _)]; [|lia]. apply wp_const. apply wp_const. apply wp_br. wst. apply FAIL; [exact Hno|apply lkeep_refl|exact Go]. }
  apply wp_nil. wst. eapply wp_lget; [exact Go|]. apply wp_byte_at; [lia|lia|]. rewrite Z.add_0_r. apply wp_ltee. apply wp_const. apply wp_r32. cbn [irel].
  apply wp_if_bool; intros Hc2; cbn [firstn skipn app].
  { apply Z.eqb_eq in Hc2. apply wp_const. apply wp_const. change (wp (bump ol 1 ++ [Br 1]) (mkcfg (lset ls (llen l) (VI32 (rd (smem st) a))) [VI32 1; VI32 1] st) (qblock E 0 []
      [LGet (llen l); Const (VI32 4); R32 Eq; If 0 2 ([Const (VI32 1); Const (VI32 0)] ++ bump ol 1) [Const (VI32 0); Const (VI32 0)]] (qblock E 2 k js Q))).
    eapply wp_bump; [lk|lia|]. apply wp_br. wst. apply (DONE true); [lia|exact Hc2]. }
  apply wp_nil. wst. eapply wp_lget; [lk|]. apply wp_const. apply wp_r32. cbn [irel]. apply wp_if_bool; intros Hc3; cbn [firstn skipn app].
  { apply Z.eqb_eq in Hc3. apply wp_const. apply wp_const. change (wp (bump ol 1 ++ []) (mkcfg (lset ls (llen l) (VI32 (rd (smem st) a))) [VI32 0; VI32 1] st) (qblock E 2 [] [] (qblock E 2 k js Q))).
    eapply wp_bump; [lk|lia|]. apply wp_nil. wst. apply wp_nil. wst. apply (DONE false); [lia|exact Hc3]. }
  apply Z.eqb_neq in Hc2, Hc3. destruct NEED as [Hno|(_ & N2)]; [|lia]. apply wp_const. apply wp_const. apply wp_nil. wst. apply wp_nil. wst.
  apply FAIL; [exact Hno|apply keep_new; lia|lk].
Qed.

(** *** Principals *)
Definition prin_value (t : ty) (p : prin) : value := match t with TTrait i => CCallable p i | _ => CPrin p end.
Lemma deser_prin_ok t : (t = TPrin \/ exists i, t = TTrait i) -> deser_right t.
Proof.
  intros Ht Hok l ol el rl c l' H Hw Ho He Hr D1 D2 D3.
  assert (H' : deser_prin ol el rl l = (c, l')) by (destruct Ht as [-> |(i & ->)]; exact H). clear H. rename H' into H. unfold deser_prin in H. rewrite add_one, !add_more in H.
  assert (Hc := f_equal fst H). assert (Hl' := f_equal snd H). cbn [fst snd] in Hc, Hl'. subst c l'. clear H. cbn [app length].
  split; [apply more_ext; auto|]. intros js ls k st a e r K o Q Go Ge Gr Hn (A1 & A2 & A3 & A4 & A5 & A6 & A7 & A8 & A9) _ _ HW S F.
  rewrite !llen_more in *. cbn [length] in *. apply live_lt in Ho, He, Hr.
  assert (Hroom : room t = 22) by (destruct Ht as [-> |(i & ->)]; reflexivity). rewrite Hroom in *.
  assert (Hb : base_type t) by (destruct Ht as [-> |(i & ->)]; exact I).
  assert (RD : forall p, prin_bytes_ok p -> readable t (prin_value t p) (sip005_prin p)).
  { intros p Hp. destruct Ht as [-> |(i & ->)]; cbn [readable prin_value sip005]; auto. }
  assert (RP : forall m P p ws, rep_bytes m P (prin_bytes p) ws -> rep m P t (prin_value t p) ws).
  { intros m P p ws Hp. destruct Ht as [-> |(i & ->)]; cbn [rep prin_value]; auto. }
  assert (FAIL : forall ls', o = None -> lkeep (hide [ol; rl] l) ls ls' -> nth_error ls' ol = Some (VI32 a) -> wp js (mkcfg ls' (VI32 0 :: VI32 0 :: VI32 0 :: k) st) Q).
  { intros ls' Hno HK HO. specialize (F ls' (smem st) [VI32 0; VI32 0]). rewrite with_mem_same in F. apply F. split; [exact Hno|]. split; [exact HK|]. split; [eauto|]. split; [apply only_refl|].
    destruct Ht as [-> |(i & ->)]; repeat constructor; cbn; lia. }
  assert (NEED : o = None \/ exists p, prin_bytes_ok p /\ holds (smem st) a (sip005_prin p) /\ a + zlen (sip005_prin p) <= e).
  { destruct o as [[v bs]|]; [right|left; reflexivity]. destruct HW as (W1 & W2 & W3). destruct Ht as [-> |(i & ->)]; destruct v; cbn [readable] in W1; try contradiction; [destruct W1 as (W1 & ->)|destruct W1 as (_ & W1 & ->)]; cbn [sip005] in *; eauto. }
  assert (Z5 : forall v h, length h = 20%nat -> zlen (sip005_prin (PStd v h)) = 22).
  { intros v h Hh. cbn [sip005_prin]. rewrite !zlen_cons. unfold zlen. rewrite Hh. reflexivity. }
  assert (Z6 : forall v h n, length h = 20%nat -> zlen (sip005_prin (PCon v h n)) = 23 + zlen n).
  { intros v h n Hh. cbn [sip005_prin]. rewrite !zlen_cons, !zlen_app, zlen_cons. unfold zlen. rewrite Hh. lia. }
  cbn [app]. apply wp_block. wst. eapply wp_lget; [exact Go|]. apply wp_const. apply wp_add32; [lia|]. eapply wp_lget; [exact Ge|]. apply wp_r32. cbn [irel]. apply wp_if_bool; intros Hc; cbn [firstn skipn].
  { unfold none3. cbn [app]. apply wp_const. apply wp_const. apply wp_const. apply wp_br. wst. apply FAIL; [|apply lkeep_refl|exact Go].
    destruct NEED as [Hno|(p & N1 & _ & N3)]; [exact Hno|]. destruct p as [v' h'|v' h' n']; destruct N1 as (_ & N1 & _); [rewrite Z5 in N3 by exact N1|rewrite Z6 in N3 by exact N1; pose proof (zlen_nonneg n')]; lia. }
  assert (HV : byte (rd (smem st) (a + 1))) by (apply rd_range).
  set (h := bytes_at (smem st) (a + 2) 20). assert (Hh : length h = 20%nat) by apply length_bytes_at. assert (Hhb : Forall byte h) by apply bytes_at_byte.
  assert (H22 : holds (smem st) a (rd (smem st) a :: rd (smem st) (a + 1) :: h)).
  { pose proof (holds_intro (smem st) a 22 ltac:(lia) ltac:(lia) ltac:(lia)) as HX. rewrite (bytes_at_S _ a 21), (bytes_at_S _ (a + 1) 20) in HX. replace (a + 1 + 1) with (a + 2) in HX by lia. exact HX. }
  apply wp_nil. wst. eapply wp_lget; [exact Go|]. apply wp_byte_at; [lia|lia|]. rewrite Z.add_0_r. apply wp_ltee. apply wp_const. apply wp_r32. cbn [irel].
  set (tg := rd (smem st) a) in *. set (ls1 := lset ls (llen l) (VI32 tg)).
  apply wp_if_bool; intros Hc2; cbn [firstn skipn].
  - apply Z.eqb_eq in Hc2. unfold bump. cbn [app]. apply wp_const. eapply wp_lget; [unfold ls1; lk|]. apply wp_ltee. apply wp_const. apply wp_add32; [lia|]. apply wp_lset.
    eapply wp_lget; [unfold ls1; lk|]. eapply wp_lget; [unfold ls1; lk|]. apply wp_const. apply wp_add32; [lia|]. apply wp_const.
    eapply (wp_copy E 21 (a + 1) r (rd (smem st) (a + 1) :: h)); [apply holds_cons in H22; tauto|rewrite zlen_cons; unfold zlen; rewrite Hh; reflexivity|lia|lia|].
    intros m1 (M1 & M2). rewrite zlen_cons in M1. unfold zlen in M1. rewrite Hh in M1. change (1 + Z.of_nat 20) with 21 in M1. assert (HS1 := only_size _ _ _ _ M1).
    eapply wp_lget; [unfold ls1; lk|]. apply wp_const. apply wp_byte; [lia|lia|cbn [smem with_mem]; lia|]. intros m2 (M3 & M4). cbn [smem with_mem] in M3, M4. rewrite with_mem_twice.
    eapply wp_lget; [unfold ls1; lk|]. apply wp_const. apply wp_add32; [lia|]. apply wp_lset. eapply wp_lget; [unfold ls1; lk|]. apply wp_const. apply wp_br. wst.
    set (p := PStd (rd (smem st) (a + 1)) h). assert (Hp : prin_bytes_ok p) by (unfold p; cbn; auto).
    assert (HH : holds (smem st) a (sip005_prin p)) by (unfold p; cbn [sip005_prin]; rewrite <- Hc2; exact H22).
    specialize (S (lset (lset (lset ls1 (llen l + 1) (VI32 r)) rl (VI32 (r + 22))) ol (VI32 (a + 22))) m2 (prin_value t p) (sip005_prin p) [VI32 r; VI32 22] (r + 22)).
    apply S. clear S. unfold succeeded. pose proof (Z5 (rd (smem st) (a + 1)) h Hh) as HZ. fold p in HZ. rewrite HZ.
    assert (HS2 := only_size _ _ _ _ M3).
    split; [apply keep_new2; [auto|]; apply keep_new2; [auto|]; apply keep_new2; [left; lia|]; apply keep_new; lia|]. split; [unfold ls1; lk|]. split; [unfold ls1; lk|]. split; [lia|].
    split. { apply (only_trans _ m1 _). { eapply only_weaken; [exact M1|lia|lia]. } { eapply only_weaken; [exact M3|lia|]. change (zlen [0]) with 1. lia. } }
    split; [apply RD; exact Hp|]. split; [exact HH|]. split; [lia|]. split; [eapply base_agrees; eauto|].
    apply RP. exists r. unfold p. cbn [prin_bytes length]. rewrite app_length, Hh. cbn [length]. change (Z.of_nat (S (20 + 1))) with 22. split; [reflexivity|]. split; [lia|]. split; [lia|]. split.
    { change (rd (smem st) (a + 1) :: h ++ [0]) with ((rd (smem st) (a + 1) :: h) ++ [0]). apply holds_app. split.
      - eapply only_holds; [exact M3|left|exact M2]. cbn [length]. rewrite Hh. lia.
      - cbn [length]. rewrite Hh. exact M4. }
    intros x Hx. right. lia.
  - apply Z.eqb_neq in Hc2. apply wp_nil. wst. eapply wp_lget; [unfold ls1; lk|]. apply wp_const. apply wp_r32. cbn [irel]. apply wp_if_bool; intros Hc3; cbn [firstn skipn].
    2:{ apply Z.eqb_neq in Hc3. unfold none3. apply wp_const. apply wp_const. apply wp_const. apply wp_nil. wst. apply wp_nil. wst. apply FAIL; [|apply keep_new; lia|unfold ls1; lk].
      destruct NEED as [Hno|(p & N1 & N2 & _)]; [exact Hno|]. destruct p; cbn [sip005_prin] in N2; apply holds_cons in N2 as (N2 & _); unfold tg in *; lia. }
    apply Z.eqb_eq in Hc3. eapply wp_lget; [unfold ls1; lk|]. apply wp_byte_at; [lia|lia|]. apply wp_ltee. set (cl := rd (smem st) (a + 22)). assert (Hcl : byte cl) by apply rd_range. unfold byte in Hcl.
    eapply wp_lget; [unfold ls1; lk|]. apply wp_add32; [lia|]. apply wp_const. apply wp_add32; [lia|]. apply wp_ltee. eapply wp_lget; [unfold ls1; lk|]. apply wp_r32. cbn [irel].
    apply wp_if_bool; intros Hc4; cbn [firstn skipn].
    { unfold none3. cbn [app]. apply wp_const. apply wp_const. apply wp_const. apply wp_br. wst. apply FAIL; [|apply keep_new2; [left; lia|]; apply keep_new2; [left; lia|]; apply keep_new; lia|unfold ls1; lk].
      destruct NEED as [Hno|(p & N1 & N2 & N3)]; [exact Hno|]. destruct p as [v' h'|v' h' n']; [cbn [sip005_prin] in N2; apply holds_cons in N2 as (N2 & _); unfold tg in *; lia|].
      destruct N1 as (_ & N1 & _). rewrite Z6 in N3 by exact N1. cbn [sip005_prin] in N2. change (6 :: v' :: h' ++ zlen n' :: n') with ((6 :: v' :: h') ++ zlen n' :: n') in N2.
      apply holds_app in N2 as (_ & N2). apply holds_cons in N2 as (N2 & _). cbn [length] in N2. rewrite N1 in N2. change (a + Z.of_nat 22) with (a + 22) in N2. unfold cl in Hc4. lia. }
    set (n := bytes_at (smem st) (a + 23) (Z.to_nat cl)). assert (Hn' : zlen n = cl) by (unfold n, zlen; rewrite length_bytes_at; lia).
    set (p := PCon (rd (smem st) (a + 1)) h n). assert (Hp : prin_bytes_ok p). { unfold p. cbn [prin_bytes_ok]. split; [exact HV|]. split; [exact Hh|]. split; [exact Hhb|]. split; [lia|]. apply bytes_at_byte. }
    assert (HH : holds (smem st) a (sip005_prin p)).
    { unfold p. cbn [sip005_prin]. change (6 :: rd (smem st) (a + 1) :: h ++ zlen n :: n) with ((6 :: rd (smem st) (a + 1) :: h) ++ zlen n :: n). apply holds_app. split; [rewrite <- Hc3; exact H22|].
      cbn [length]. rewrite Hh. change (a + Z.of_nat 22) with (a + 22). rewrite Hn'. pose proof (holds_at (smem st) (a + 22) (cl + 1) ltac:(lia) ltac:(lia) ltac:(lia)) as HX.
      replace (Z.to_nat (cl + 1)) with (1 + Z.to_nat cl)%nat in HX by lia. cbn [Nat.add] in HX. rewrite bytes_at_S in HX. replace (a + 22 + 1) with (a + 23) in HX by lia. exact HX. }
    apply wp_nil. wst. apply wp_const. eapply wp_lget; [unfold ls1; lk|]. apply wp_const. apply wp_add32; [lia|]. eapply wp_lget; [unfold ls1; lk|]. apply wp_const. apply wp_add32; [lia|].
    eapply wp_lget; [unfold ls1; lk|]. apply wp_lset. apply wp_nil. wst. apply wp_nil. wst.
    set (ls2 := lset (lset ls1 (llen l + 2) (VI32 cl)) (llen l + 3) (VI32 (cl + a + 23))).
    specialize (S (lset ls2 ol (VI32 (cl + a + 23))) (smem st) (prin_value t p) (sip005_prin p) [VI32 (a + 1); VI32 (cl + 22)] r). rewrite with_mem_same in S.
    apply S. clear S. unfold succeeded. pose proof (Z6 (rd (smem st) (a + 1)) h n Hh) as HZ. fold p in HZ. rewrite HZ, Hn'.
    split; [apply keep_new2; [auto|]; apply keep_new2; [left; lia|]; apply keep_new2; [left; lia|]; apply keep_new; lia|]. split; [replace (a + (23 + cl)) with (cl + a + 23) by lia; unfold ls2, ls1; lk|]. split; [unfold ls2, ls1; lk|]. split; [lia|].
    split; [apply only_refl|]. split; [apply RD; exact Hp|]. split; [exact HH|]. split; [lia|]. split; [eapply base_agrees; eauto|].
    apply RP. exists (a + 1). assert (HL : Z.of_nat (length (prin_bytes p)) = cl + 22). { unfold p. cbn [prin_bytes length]. rewrite app_length, Hh. cbn [length]. unfold zlen in Hn'. lia. }
    rewrite HL. split; [reflexivity|]. split; [lia|]. split; [lia|]. split; [|intros x Hx; left; lia].
    unfold p in HH. cbn [sip005_prin] in HH. apply holds_cons in HH. unfold p. cbn [prin_bytes]. unfold zlen in HH. tauto.
Qed.
End Code.
End Tab.
