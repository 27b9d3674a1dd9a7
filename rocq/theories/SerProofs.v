(** * Correctness of the emitted serialization code (proof support) *)
From Coq Require Import ZArith String Ascii List Bool Lia.
Import ListNotations.
From Verif Require Import Wasm Std StdEnv WasmLogic WasmTac Spec Mem MemFacts Bytes SpecBytes SpecUtf8 Clar Rep RepFacts Emit CallProofs EmitFacts EmitProofs
  ReadProofs Equal EqualProofs Utf8Proofs BeProofs SpecSer Ser.
Open Scope string_scope.
Open Scope list_scope.
Open Scope Z_scope.

(** ** Fresh locals *)
Definition more (l : lst) (ts : list vt) : lst := mkl (l_tys l ++ ts) (l_p32 l) (l_p64 l).
Lemma add_one t l : add_local t l = (llen l, more l [t]).
Proof. reflexivity. Qed.
Lemma add_more t l ts : add_local t (more l ts) = ((llen l + length ts)%nat, more l (ts ++ [t])).
Proof. unfold add_local, more, llen. cbn [l_tys l_p32 l_p64]. rewrite app_length, app_assoc. reflexivity. Qed.
Lemma llen_more l ts : llen (more l ts) = (llen l + length ts)%nat.
Proof. unfold llen, more. cbn [l_tys]. apply app_length. Qed.
Lemma more_wf l ts : lwf l -> lwf (more l ts).
Proof.
  intros (H1 & H2). split; [exact H1|]. rewrite llen_more. unfold pool, more; cbn [l_p32 l_p64].
  eapply Forall_impl; [|exact H2]. cbv beta. intros; lia.
Qed.
Lemma live_more l ts i : live l i -> live (more l ts) i.
Proof. intros (H1 & H2). split; [rewrite llen_more; lia|exact H2]. Qed.
Lemma more_ext l ts : lwf l -> lext l (more l ts).
Proof. intros H. split; [apply more_wf; auto|]. split; [rewrite llen_more; lia|]. intros; apply live_more; auto. Qed.
Lemma live_lt l i : live l i -> (i < llen l)%nat.
Proof. intros H; apply H. Qed.
Lemma live_new l ts j : lwf l -> (j < length ts)%nat -> live (more l ts) (llen l + j).
Proof.
  intros (_ & H) Hj. split; [rewrite llen_more; lia|]. unfold more, pool in *. cbn [l_p32 l_p64]. intros Hi.
  rewrite Forall_forall in H. apply H in Hi. lia.
Qed.
Lemma lkeep_new l ls i v : (llen l <= i)%nat -> lkeep l ls (lset ls i v).
Proof. intros H. apply lkeep_lset. intros HX. apply live_lt in HX. lia. Qed.
Lemma lkeep_new2 l ls ls' i v : (llen l <= i)%nat -> lkeep l ls ls' -> lkeep l ls (lset ls' i v).
Proof. intros H K. eapply lkeep_trans0; [exact K|]. apply lkeep_new; auto. Qed.

Ltac lk := repeat first [ rewrite lset_same by (rewrite ?lset_len; lia) | rewrite lset_other by lia ]; first [reflexivity|eassumption].
Ltac nrm := rewrite <- ?app_assoc; cbn [app]; rewrite <- ?app_assoc; cbn [app].
Ltac lks := rewrite ?lset_len.

(** ** Bytes written at an address *)
Definition wrote (m m' : mem) (x : Z) (bs : list Z) : Prop := only_changes m m' x (zlen bs) /\ holds m' x bs.

Lemma zlen_app {A} (a b : list A) : zlen (a ++ b) = zlen a + zlen b.
Proof. unfold zlen. rewrite app_length. lia. Qed.
Lemma zlen_cons {A} (a : A) b : zlen (a :: b) = 1 + zlen b.
Proof. unfold zlen. cbn [length]. lia. Qed.
Lemma zlen_nil {A} : zlen (@nil A) = 0.
Proof. reflexivity. Qed.
Lemma zlen_nonneg {A} (a : list A) : 0 <= zlen a.
Proof. unfold zlen. lia. Qed.
Lemma zlen_be n z : zlen (be_bytes n z) = Z.of_nat n.
Proof. unfold zlen. rewrite len_be_bytes. reflexivity. Qed.

Lemma wrote_size m m' x bs : wrote m m' x bs -> msize m' = msize m.
Proof. intros (H & _). eapply only_size; eauto. Qed.
Lemma wrote_app m m1 m2 x bs1 bs2 : wrote m m1 x bs1 -> wrote m1 m2 (x + zlen bs1) bs2 -> wrote m m2 x (bs1 ++ bs2).
Proof.
  intros (A1 & A2) (B1 & B2). pose proof (zlen_nonneg bs1). pose proof (zlen_nonneg bs2). split.
  - rewrite zlen_app. eapply only_trans; [eapply only_weaken; [exact A1| |]|eapply only_weaken; [exact B1| |]]; lia.
  - apply holds_app. split; [|exact B2]. eapply only_holds; [exact B1| |exact A2]. unfold zlen. lia.
Qed.
Lemma wrote_app_rev m m1 m2 x bs1 bs2 : wrote m m1 (x + zlen bs1) bs2 -> wrote m1 m2 x bs1 -> wrote m m2 x (bs1 ++ bs2).
Proof.
  intros (A1 & A2) (B1 & B2). pose proof (zlen_nonneg bs1). pose proof (zlen_nonneg bs2). split.
  - rewrite zlen_app. eapply only_trans; [eapply only_weaken; [exact A1| |]|eapply only_weaken; [exact B1| |]]; lia.
  - apply holds_app. split; [exact B2|]. eapply only_holds; [exact B1| |exact A2]. unfold zlen. lia.
Qed.
Lemma wrote_cons m m1 m2 x b bs : wrote m m1 x [b] -> wrote m1 m2 (x + 1) bs -> wrote m m2 x (b :: bs).
Proof. intros H1 H2. change (b :: bs) with ([b] ++ bs). eapply wrote_app; eauto. Qed.
Lemma wrote_nil m x : 0 <= x <= msize m -> msize m <= m32 -> wrote m m x [].
Proof. intros H1 H2. split; [apply only_refl|apply holds_nil; auto]. Qed.
Lemma wrote_write m x bs : 0 <= x -> x + zlen bs <= msize m <= m32 -> Forall (fun b => 0 <= b < 256) bs -> wrote m (write_bytes m x bs) x bs.
Proof.
  intros H1 H2 H3. split; [apply only_write|]. split; [exact H1|]. rewrite msize_write. unfold zlen in H2. rewrite bytes_at_write by auto.
  repeat first [split; [lia|] | reflexivity].
Qed.

(** what a region outside the written bytes says *)
Definition off_limits (P : Z -> Prop) (x n : Z) : Prop := forall y, P y -> y < x \/ x + n <= y.
Lemma wrote_rd m m' x bs P y : wrote m m' x bs -> off_limits P x (zlen bs) -> P y -> rd m' y = rd m y.
Proof. intros ((_ & H) & _) HP Hy. apply H. apply HP in Hy. lia. Qed.
Lemma off_sub P x n y k : off_limits P x n -> x <= y -> y + k <= x + n -> off_limits P y k.
Proof. intros H H1 H2 z Hz. apply H in Hz. lia. Qed.

(** ** Literals *)
Section Lits.
Variable lit : string -> Z.
Definition lit_ok (m : mem) (P : Z -> Prop) (k : string) : Prop :=
  0 <= lit k /\ zlen (chars k) < 256 /\ holds m (lit k) (chars k) /\ inside P (lit k) (zlen (chars k)).
Fixpoint lits (m : mem) (P : Z -> Prop) (t : ty) : Prop :=
  match t with
  | TOpt t | TList _ t => lits m P t
  | TResp t e => lits m P t /\ lits m P e
  | TTuple fs => (fix go (fs : list (string * ty)) := match fs with [] => True | (k, t) :: fs => lit_ok m P k /\ lits m P t /\ go fs end) fs
  | _ => True
  end.
Definition lits_fields m P : list (string * ty) -> Prop :=
  fix go (fs : list (string * ty)) := match fs with [] => True | (k, t) :: fs => lit_ok m P k /\ lits m P t /\ go fs end.

Lemma lit_ok_frame m m' (P : Z -> Prop) k : msize m' = msize m -> (forall x, P x -> rd m' x = rd m x) -> lit_ok m P k -> lit_ok m' P k.
Proof.
  intros Hs Hr (H1 & H2 & H3 & H4). split; auto. split; auto. split; auto. eapply holds_ext; eauto.
Qed.
Lemma lits_frame m m' (P : Z -> Prop) t : msize m' = msize m -> (forall x, P x -> rd m' x = rd m x) -> lits m P t -> lits m' P t.
Proof.
  intros Hs Hr. induction t using ty_ind'; cbn [lits]; try (intros; exact I); try assumption.
  - intros (A & B); auto.
  - induction H as [|[k t] fs Ht H IH]; [auto|]. intros (A & B & C). split; [exact (lit_ok_frame _ _ _ _ Hs Hr A)|]. split; [exact (Ht B)|exact (IH C)].
Qed.
Lemma lits_fields_frame m m' (P : Z -> Prop) fs : msize m' = msize m -> (forall x, P x -> rd m' x = rd m x) -> lits_fields m P fs -> lits_fields m' P fs.
Proof. intros Hs Hr H. exact (lits_frame m m' P (TTuple fs) Hs Hr H). Qed.

Lemma chars_len k : zlen (chars k) = Z.of_nat (String.length k).
Proof.
  unfold zlen, chars. rewrite map_length. f_equal. induction k; cbn [list_ascii_of_string length String.length]; auto.
Qed.

(** ** Code *)
Section Code.
Context {HS : Type} (E : env HS) (HE : has_std E).
Notation wp := (wp E).

Lemma wp_byte off p a js ls k (st : store HS) Q : 0 <= p < 256 -> 0 <= a + off -> a + off + 1 <= msize (smem st) <= m32 ->
  (forall m', wrote (smem st) m' (a + off) [p] -> wp js (mkcfg ls k (with_mem st m')) Q) ->
  wp (Store S32_8 off :: js) (mkcfg ls (VI32 p :: VI32 a :: k) st) Q.
Proof.
  intros Hp Ha Hb HW. eapply wp_store; [reflexivity|cbn [stbytes]; lia|]. cbn [stbytes]. rewrite stn1_write. apply HW.
  apply wrote_write; [lia|change (zlen [p]) with 1; lia|]. constructor; [lia|constructor].
Qed.
Lemma wp_be32 a v js ls k (st : store HS) Q : 0 <= v < m32 -> 0 <= a -> a + 4 <= msize (smem st) <= m32 ->
  (forall m', wrote (smem st) m' a (u32_be v) -> wp js (mkcfg ls k (with_mem st m')) Q) ->
  wp (Call "stdlib.store-i32-be" :: js) (mkcfg ls (VI32 v :: VI32 a :: k) st) Q.
Proof.
  intros Hv Ha Hb HW. wcall HE. apply store_i32_be_wp; auto; [lia|]. unfold qcall. cbn [cont rev app]. apply HW. apply wrote_write; [lia|unfold u32_be; rewrite zlen_be; lia|apply be_bytes_byte].
Qed.
Lemma wp_be64 a v js ls k (st : store HS) Q : 0 <= v < m64 -> 0 <= a -> a + 8 <= msize (smem st) <= m32 ->
  (forall m', wrote (smem st) m' a (be_bytes 8 v) -> wp js (mkcfg ls k (with_mem st m')) Q) ->
  wp (Call "stdlib.store-i64-be" :: js) (mkcfg ls (VI64 v :: VI32 a :: k) st) Q.
Proof.
  intros Hv Ha Hb HW. wcall HE. apply store_i64_be_wp; auto; [lia|]. unfold qcall. cbn [cont rev app]. apply HW. apply wrote_write; [lia|rewrite zlen_be; lia|apply be_bytes_byte].
Qed.
Lemma wp_copy n s d bs js ls k (st : store HS) Q : holds (smem st) s bs -> n = zlen bs -> 0 <= d -> d + n <= msize (smem st) ->
  (forall m', wrote (smem st) m' d bs -> wp js (mkcfg ls k (with_mem st m')) Q) ->
  wp (MemCopy :: js) (mkcfg ls (VI32 n :: VI32 s :: VI32 d :: k) st) Q.
Proof.
  intros Hh -> Hd Hb HW. destruct (holds_len _ _ _ Hh) as (A & B & C). apply wp_memcopy; [unfold zlen; lia|lia|]. apply HW. split; [apply only_mcopy|].
  split; [exact Hd|]. rewrite msize_mcopy. unfold zlen in Hb. split; [lia|].
  unfold zlen. rewrite bytes_at_mcopy_same. apply holds_eq; auto.
Qed.
Lemma wp_add32 a b js ls k (st : store HS) Q : 0 <= a + b < m32 -> wp js (mkcfg ls (VI32 (a + b) :: k) st) Q ->
  wp (B32 Add :: js) (mkcfg ls (VI32 b :: VI32 a :: k) st) Q.
Proof. intros H HW. eapply wp_b32; [reflexivity|]. rewrite Z.mod_small by lia. exact HW. Qed.
Lemma wp_sub32 a b js ls k (st : store HS) Q : 0 <= a - b < m32 -> wp js (mkcfg ls (VI32 (a - b) :: k) st) Q ->
  wp (B32 Sub :: js) (mkcfg ls (VI32 b :: VI32 a :: k) st) Q.
Proof. intros H HW. eapply wp_b32; [reflexivity|]. rewrite Z.mod_small by lia. exact HW. Qed.

Lemma wp_if1 nr t e js ls k (st : store HS) Q : wp t (mkcfg ls [] st) (qblock E nr k js Q) -> wp (If 0 nr t e :: js) (mkcfg ls (VI32 1 :: k) st) Q.
Proof. intros H. change (VI32 1) with (VI32 (b2z true)). apply wp_if_bool; intros HX; [exact H|discriminate]. Qed.
Lemma wp_if0 nr t e js ls k (st : store HS) Q : wp e (mkcfg ls [] st) (qblock E nr k js Q) -> wp (If 0 nr t e :: js) (mkcfg ls (VI32 0 :: k) st) Q.
Proof. intros H. change (VI32 0) with (VI32 (b2z false)). apply wp_if_bool; intros HX; [discriminate|exact H]. Qed.

Definition sers (t : ty) (c : list instr) (l l' : lst) (ol : nat) (off : Z) : Prop :=
  lext l l' /\
  forall js ls k (st : store HS) a v ws P Q, nth_error ls ol = Some (VI32 a) -> (llen l' <= length ls)%nat ->
    has_type t v -> rep (smem st) P t v ws -> lits (smem st) P t ->
    0 <= a -> 0 <= off -> a + off + zlen (sip005 v) <= msize (smem st) <= m32 -> a + off + zlen (sip005 v) < m32 ->
    off_limits P (a + off) (zlen (sip005 v)) ->
    (forall ls' m', lkeep l ls ls' -> wrote (smem st) m' (a + off) (sip005 v) ->
       wp js (mkcfg ls' (VI32 (zlen (sip005 v)) :: k) (with_mem st m')) Q) ->
    wp (c ++ js) (mkcfg ls (rev ws ++ k) st) Q.

Lemma ptr_ok ol off w a js ls k (st : store HS) Q : nth_error ls ol = Some (VI32 a) -> 0 <= a -> 0 <= off -> a + off < m32 ->
  wp js (mkcfg (lset ls w (VI32 (a + off))) (VI32 (a + off) :: k) st) Q -> wp (ser_ptr ol off w ++ js) (mkcfg ls k st) Q.
Proof.
  intros H1 Ha Ho Hb HW. unfold ser_ptr. destruct (Z.ltb_spec 0 off).
  - cbn [app]. eapply wp_lget; [exact H1|]. apply wp_const. apply wp_add32; [lia|]. apply wp_ltee. exact HW.
  - assert (off = 0) as -> by lia. rewrite Z.add_0_r in HW. cbn [app]. eapply wp_lget; [exact H1|]. apply wp_ltee. exact HW.
Qed.

Lemma be_split z : 0 <= z < 2 ^ 128 -> be_bytes 16 z = be_bytes 8 (z / 2 ^ 64) ++ be_bytes 8 (z mod 2 ^ 64).
Proof.
  intros Hz. unfold be_bytes. rewrite <- rev_app_distr. f_equal. change 16%nat with (8 + 8)%nat. rewrite le_bytes_app.
  change (256 ^ Z.of_nat 8) with (2 ^ 64). f_equal. symmetry. change (2 ^ 64) with (256 ^ Z.of_nat 8) at 1. apply le_bytes_mod.
Qed.

Lemma ser_int_ok t p z l ol off c l' : ser_int p ol off l = (c, l') -> lwf l -> live l ol -> 0 <= p < 256 ->
  clar2wasm_ty t = [T64; T64] -> 
  lext l l' /\
  forall js ls k (st : store HS) a Q, nth_error ls ol = Some (VI32 a) -> (llen l' <= length ls)%nat -> 0 <= z < 2 ^ 128 ->
    0 <= a -> 0 <= off -> a + off + 17 <= msize (smem st) <= m32 -> a + off + 17 < m32 ->
    (forall ls' m', lkeep l ls ls' -> wrote (smem st) m' (a + off) (p :: be_bytes 16 z) ->
       wp js (mkcfg ls' (VI32 17 :: k) (with_mem st m')) Q) ->
    wp (c ++ js) (mkcfg ls (VI64 (z / 2 ^ 64) :: VI64 (z mod 2 ^ 64) :: k) st) Q.
Proof.
  intros H Hw Hl Hp _. unfold ser_int in H. rewrite add_one, !add_more in H. cbn [length app] in H.
  assert (Hc := f_equal fst H). assert (Hl' := f_equal snd H). cbn [fst snd] in Hc, Hl'. subst c l'. clear H.
  split; [apply more_ext; auto|]. intros js ls k st a Q Hol Hn Hz Ha Ho Hb Hs HW. rewrite llen_more in Hn. cbn [length] in Hn. apply live_lt in Hl.
  nrm. apply wp_lset. apply wp_lset.
  eapply ptr_ok; [lk|lia|lia|lia|]. apply wp_const. apply wp_byte; [lia|lia|lia|]. intros m1 W1. rewrite Z.add_0_r in W1.
  pose proof (wrote_size _ _ _ _ W1) as S1.
  eapply wp_lget; [lk|]. apply wp_const. apply wp_add32; [lia|]. apply wp_ltee. eapply wp_lget; [lk|].
  apply wp_be64; [split; [apply Z.div_pos; lia|apply Z.div_lt_upper_bound; lia]|lia|cbn [smem with_mem]; lia|]. intros m2 W2. cbn [smem with_mem] in W2. rewrite with_mem_twice.
  pose proof (wrote_size _ _ _ _ W2) as S2.
  eapply wp_lget; [lk|]. apply wp_const. apply wp_add32; [lia|]. apply wp_ltee. eapply wp_lget; [lk|].
  apply wp_be64; [apply Z.mod_pos_bound; lia|lia|cbn [smem with_mem]; lia|]. intros m3 W3. cbn [smem with_mem] in W3. rewrite with_mem_twice.
  apply wp_const. apply HW.
  - repeat (apply lkeep_new2; [lia|]). apply lkeep_refl.
  - rewrite be_split by lia. eapply wrote_cons; [exact W1|]. eapply wrote_app; [exact W2|]. rewrite zlen_be. exact W3.
Qed.

Lemma prefix_ok p ol off a js ls k (st : store HS) Q : nth_error ls ol = Some (VI32 a) -> 0 <= p < 256 -> 0 <= a -> 0 <= off ->
  a + off + 1 <= msize (smem st) <= m32 ->
  (forall m', wrote (smem st) m' (a + off) [p] -> wp js (mkcfg ls k (with_mem st m')) Q) ->
  wp (ser_prefix p ol off ++ js) (mkcfg ls k st) Q.
Proof.
  intros H1 Hp Ha Ho Hb HW. unfold ser_prefix. cbn [app]. eapply wp_lget; [exact H1|]. apply wp_const. apply wp_byte; auto. lia.
Qed.

(** what survives outside the output *)
Lemma wrote_holds m m' x bs P s cs : wrote m m' x bs -> off_limits P x (zlen bs) -> inside P s (zlen cs) -> holds m s cs -> holds m' s cs.
Proof.
  intros W HP Hi Hh. eapply holds_ext; [eapply wrote_size; eauto| |exact Hh]. intros y Hy. eapply wrote_rd; eauto.
Qed.
Lemma wrote_rep m m' x bs P t v ws : wrote m m' x bs -> off_limits P x (zlen bs) -> rep m P t v ws -> rep m' P t v ws.
Proof.
  intros W HP. apply rep_frame; [eapply wrote_size; eauto| |auto]. intros y Hy. eapply wrote_rd; eauto.
Qed.
Lemma wrote_lits m m' x bs P t : wrote m m' x bs -> off_limits P x (zlen bs) -> lits m P t -> lits m' P t.
Proof.
  intros W HP. apply lits_frame; [eapply wrote_size; eauto|]. intros y Hy. eapply wrote_rd; eauto.
Qed.

(** principals *)
Lemma ser_prin_ok l ol off c l' : ser_prin ol off l = (c, l') -> lwf l -> live l ol ->
  lext l l' /\
  forall js ls k (st : store HS) a p ws P Q, nth_error ls ol = Some (VI32 a) -> (llen l' <= length ls)%nat -> prin_ok p ->
    rep_bytes (smem st) P (prin_bytes p) ws ->
    0 <= a -> 0 <= off -> a + off + zlen (sip005_prin p) <= msize (smem st) <= m32 -> a + off + zlen (sip005_prin p) < m32 ->
    off_limits P (a + off) (zlen (sip005_prin p)) ->
    (forall ls' m', lkeep l ls ls' -> wrote (smem st) m' (a + off) (sip005_prin p) ->
       wp js (mkcfg ls' (VI32 (zlen (sip005_prin p)) :: k) (with_mem st m')) Q) ->
    wp (c ++ js) (mkcfg ls (rev ws ++ k) st) Q.
Proof.
  intros H Hw Hl. unfold ser_prin in H. rewrite add_one, !add_more in H. cbn [length app] in H.
  assert (Hc := f_equal fst H). assert (Hl' := f_equal snd H). cbn [fst snd] in Hc, Hl'. subst c l'. clear H.
  split; [apply more_ext; auto|]. intros js ls k st a p ws P Q Hol Hn Hp (o & -> & Ho & Hlen & Hh & Hi) Ha Hoff Hb Hs HP HW.
  rewrite llen_more in Hn. cbn [length] in Hn. apply live_lt in Hl. cbn [rev app].
  nrm. apply wp_lset. apply wp_lset.
  destruct p as [v h|v h n].
  - destruct Hp as (Hv & Hh20 & Hhb). cbn [prin_bytes sip005_prin] in *.
    assert (L20 : zlen h = 20) by (unfold zlen; lia).
    rewrite !zlen_cons, L20 in *.
    assert (LL : Z.of_nat (length (v :: h ++ [0])) = 22) by (cbn [length]; rewrite app_length, Hh20; reflexivity).
    rewrite LL in *.
    eapply ptr_ok; [lk|lia|lia|lia|]. apply wp_const. apply wp_add32; [lia|]. eapply wp_lget; [lk|]. apply wp_const.
    change (v :: h ++ [0]) with ((v :: h) ++ [0]) in Hh. apply holds_app in Hh. destruct Hh as (Hh1 & Hh2).
    eapply wp_copy; [exact Hh1|rewrite zlen_cons; lia|lia|lia|]. intros m1 W1. pose proof (wrote_size _ _ _ _ W1) as S1.
    eapply wp_lget; [lk|]. apply wp_const. apply wp_r32.
    change (irel sgn32 GtS 22 22) with false. apply wp_if_bool; intros HX; [discriminate|]. cbn [firstn skipn].
    apply wp_const. eapply wp_lget; [lk|]. apply wp_const. apply wp_byte; [lia|lia|cbn [smem with_mem]; lia|]. intros m2 W2.
    cbn [smem with_mem] in W2. rewrite with_mem_twice. rewrite Z.add_0_r in W2.
    apply wp_nil. wst. apply HW.
    + repeat (apply lkeep_new2; [lia|]). apply lkeep_refl.
    + change (5 :: v :: h) with ([5] ++ (v :: h)). eapply wrote_app_rev; [|exact W2]. exact W1.
  - destruct Hp as ((Hv & Hh20 & Hhb) & Hnm & Hnl). cbn [prin_bytes sip005_prin] in *.
    assert (L20 : zlen h = 20) by (unfold zlen; lia). set (N := zlen n) in *.
    assert (HN : 1 <= N <= 128).
    { unfold N, zlen. destruct n as [|x n]; [exfalso; destruct Hnm as [Hnm|(c & r & Hnm & _)]; discriminate|]. cbn [length] in *. lia. }
    rewrite !zlen_cons, !zlen_app, !zlen_cons, L20 in *. fold N in HP, HW, Hb, Hs.
    change (Z.of_nat (length n)) with N in *.
    assert (LL : Z.of_nat (length (v :: h ++ N :: n)) = 22 + N).
    { cbn [length]. rewrite app_length, Hh20. cbn [length]. unfold N, zlen. lia. }
    rewrite LL in *.
    eapply ptr_ok; [lk|lia|lia|lia|]. apply wp_const. apply wp_add32; [lia|]. eapply wp_lget; [lk|]. apply wp_const.
    pose proof (holds_len _ _ _ Hh) as (_ & HO1 & HO2). rewrite LL in HO1.
    change (v :: h ++ N :: n) with ((v :: h) ++ N :: n) in Hh. apply holds_app in Hh. destruct Hh as (Hh1 & Hh2).
    eapply wp_copy; [exact Hh1|rewrite zlen_cons; lia|lia|lia|]. intros m1 W1. pose proof (wrote_size _ _ _ _ W1) as S1.
    change (N :: n) with ([N] ++ n) in Hh2. apply holds_app in Hh2. destruct Hh2 as (Hh2 & Hh3). cbn [length] in Hh3. rewrite Hh20 in Hh3.
    eapply wp_lget; [lk|]. apply wp_const. apply wp_r32.
    replace (irel sgn32 GtS (22 + N) 22) with true by (cbn [irel]; rewrite !sgn32_small by lia; symmetry; apply Z.ltb_lt; lia).
    apply wp_if_bool; intros HX; [|discriminate]. cbn [firstn skipn].
    eapply wp_lget; [lk|]. apply wp_const. apply wp_add32; [lia|]. eapply wp_lget; [lk|]. apply wp_const. apply wp_sub32; [lia|].
    replace (22 + N - 22) with N by lia.
    apply wp_byte; [lia|lia|cbn [smem with_mem]; lia|]. intros m2 W2. cbn [smem with_mem] in W2. rewrite with_mem_twice, Z.add_0_r in *.
    pose proof (wrote_size _ _ _ _ W2) as S2.
    eapply wp_lget; [lk|]. apply wp_const. apply wp_add32; [lia|]. eapply wp_lget; [lk|]. apply wp_const. apply wp_add32; [lia|].
    eapply wp_lget; [lk|]. apply wp_const. apply wp_sub32; [lia|]. replace (22 + N - 22) with N by lia.
    assert (W12 : wrote (smem st) m2 (a + off + 1) ((v :: h) ++ [N])).
    { eapply wrote_app; [exact W1|]. rewrite zlen_cons, L20. replace (a + off + 1 + (1 + 20)) with (a + off + 22) by lia. exact W2. }
    eapply wp_copy with (bs := n); [cbn [smem with_mem]| reflexivity|lia|cbn [smem with_mem]; lia|].
    { eapply (wrote_holds _ _ _ _ _ _ _ W12); [eapply off_sub; [exact HP|lia|]|intros y Hy; apply Hi; fold N in Hy; lia|].
      - rewrite zlen_app, !zlen_cons, L20, zlen_nil. lia.
      - replace (o + 22) with (o + Z.of_nat 21 + Z.of_nat 1) by lia. exact Hh3. }
    intros m3 W3. cbn [smem with_mem] in W3. rewrite with_mem_twice. pose proof (wrote_size _ _ _ _ W3) as S3.
    eapply wp_lget; [lk|]. apply wp_const. apply wp_add32; [lia|].
    eapply wp_lget; [lk|]. apply wp_const. apply wp_byte; [lia|lia|cbn [smem with_mem]; lia|]. intros m4 W4. cbn [smem with_mem] in W4. rewrite with_mem_twice, Z.add_0_r in *.
    apply wp_nil. wst. replace (22 + N + 1) with (1 + (1 + (20 + (1 + N)))) by lia. apply HW.
    + repeat (apply lkeep_new2; [lia|]). apply lkeep_refl.
    + change (6 :: v :: h ++ N :: n) with ([6] ++ ((v :: h) ++ [N] ++ n)). eapply wrote_app_rev; [|exact W4]. rewrite app_assoc.
      eapply wrote_app; [exact W12|]. rewrite zlen_app, !zlen_cons, L20, zlen_nil.
      replace (a + off + (1 + 0) + (1 + 20 + (1 + 0))) with (a + off + 23) by lia. exact W3.
Qed.

(** buffers and ASCII strings *)
Lemma ser_bytes_ok p l ol off c l' : ser_bytes p ol off l = (c, l') -> lwf l -> live l ol -> 0 <= p < 256 ->
  lext l l' /\
  forall js ls k (st : store HS) a bs ws P Q, nth_error ls ol = Some (VI32 a) -> (llen l' <= length ls)%nat ->
    rep_bytes (smem st) P bs ws ->
    0 <= a -> 0 <= off -> a + off + (5 + zlen bs) <= msize (smem st) <= m32 -> a + off + (5 + zlen bs) < m32 ->
    off_limits P (a + off) (5 + zlen bs) ->
    (forall ls' m', lkeep l ls ls' -> wrote (smem st) m' (a + off) (p :: u32_be (zlen bs) ++ bs) ->
       wp js (mkcfg ls' (VI32 (5 + zlen bs) :: k) (with_mem st m')) Q) ->
    wp (c ++ js) (mkcfg ls (rev ws ++ k) st) Q.
Proof.
  intros H Hw Hl Hp. unfold ser_bytes in H. rewrite add_one, !add_more in H. cbn [length app] in H.
  assert (Hc := f_equal fst H). assert (Hl' := f_equal snd H). cbn [fst snd] in Hc, Hl'. subst c l'. clear H.
  split; [apply more_ext; auto|]. intros js ls k st a bs ws P Q Hol Hn (o & -> & Ho & Hlen & Hh & Hi) Ha Hoff Hb Hs HP HW.
  rewrite llen_more in Hn. cbn [length app] in Hn. apply live_lt in Hl. cbn [rev app]. pose proof (zlen_nonneg bs) as Hz.
  change (Z.of_nat (length bs)) with (zlen bs) in *. nrm. apply wp_lset. apply wp_lset.
  eapply prefix_ok; [lk|lia|lia|lia|lia|]. intros m1 W1. pose proof (wrote_size _ _ _ _ W1) as S1.
  eapply wp_lget; [lk|]. apply wp_const. apply wp_add32; [lia|]. apply wp_ltee. eapply wp_lget; [lk|].
  apply wp_be32; [lia|lia|cbn [smem with_mem]; lia|]. intros m2 W2. cbn [smem with_mem] in W2. rewrite with_mem_twice. pose proof (wrote_size _ _ _ _ W2) as S2.
  eapply wp_lget; [lk|]. apply wp_const. apply wp_add32; [lia|]. apply wp_ltee. eapply wp_lget; [lk|]. eapply wp_lget; [lk|].
  assert (W12 : wrote (smem st) m2 (a + off) (p :: u32_be (zlen bs))).
  { eapply wrote_cons; [exact W1|]. replace (a + off + 1) with (a + (off + 1)) by lia. exact W2. }
  eapply wp_copy with (bs := bs); [cbn [smem with_mem]|reflexivity|lia|cbn [smem with_mem]; lia|].
  { eapply (wrote_holds _ _ _ _ _ _ _ W12); [eapply off_sub; [exact HP|lia|]|exact Hi|exact Hh].
    rewrite zlen_cons. unfold u32_be. rewrite zlen_be. lia. }
  intros m3 W3. cbn [smem with_mem] in W3. rewrite with_mem_twice.
  eapply wp_lget; [lk|]. apply wp_const. apply wp_add32; [lia|]. rewrite (Z.add_comm (zlen bs) 5). apply HW.
  - repeat (apply lkeep_new2; [lia|]). apply lkeep_refl.
  - change (p :: u32_be (zlen bs) ++ bs) with ((p :: u32_be (zlen bs)) ++ bs). eapply wrote_app; [exact W12|].
    rewrite zlen_cons. unfold u32_be. rewrite zlen_be. replace (a + off + (1 + Z.of_nat 4)) with (a + (off + 1) + 4) by lia. exact W3.
Qed.

Lemma mem_utf8 cs : flat_map (be_bytes 4) cs = utf8_mem cs.
Proof.
  unfold utf8_mem. apply flat_map_ext. intros c. unfold be_bytes, be4. cbn [le_bytes rev app].
  rewrite !Z.div_div by lia. reflexivity.
Qed.

Lemma ser_utf8_ok l ol off c l' : ser_utf8 ol off l = (c, l') -> lwf l -> live l ol ->
  lext l l' /\
  forall js ls k (st : store HS) a cs ws P Q, nth_error ls ol = Some (VI32 a) -> (llen l' <= length ls)%nat -> Forall scalar cs ->
    rep_bytes (smem st) P (flat_map (be_bytes 4) cs) ws ->
    0 <= a -> 0 <= off -> a + off + (5 + zlen (utf8 cs)) <= msize (smem st) <= m32 -> a + off + (5 + zlen (utf8 cs)) < m32 ->
    off_limits P (a + off) (5 + zlen (utf8 cs)) ->
    (forall ls' m', lkeep l ls ls' -> wrote (smem st) m' (a + off) (14 :: u32_be (zlen (utf8 cs)) ++ utf8 cs) ->
       wp js (mkcfg ls' (VI32 (5 + zlen (utf8 cs)) :: k) (with_mem st m')) Q) ->
    wp (c ++ js) (mkcfg ls (rev ws ++ k) st) Q.
Proof.
  intros H Hw Hl. unfold ser_utf8 in H. rewrite add_one, !add_more in H. cbn [length app] in H.
  assert (Hc := f_equal fst H). assert (Hl' := f_equal snd H). cbn [fst snd] in Hc, Hl'. subst c l'. clear H.
  split; [apply more_ext; auto|]. intros js ls k st a cs ws P Q Hol Hn Hsc (o & -> & Ho & Hlen & Hh & Hi) Ha Hoff Hb Hs HP HW.
  rewrite llen_more in Hn. cbn [length app] in Hn. apply live_lt in Hl. cbn [rev app]. rewrite mem_utf8 in *. rewrite len4 in *.
  assert (Hut : Forall in_utf8 cs) by (eapply Forall_impl; [|exact Hsc]; unfold scalar, in_utf8; intros; lia).
  set (bs := utf8 cs) in *. pose proof (zlen_nonneg bs) as Hz. nrm. apply wp_lset. apply wp_lset.
  eapply prefix_ok; [lk|lia|lia|lia|lia|]. intros m1 W1. pose proof (wrote_size _ _ _ _ W1) as S1.
  eapply wp_lget; [lk|]. apply wp_const. apply wp_add32; [lia|]. apply wp_lset. eapply wp_lget; [lk|]. eapply wp_lget; [lk|]. eapply wp_lget; [lk|].
  wcall HE. destruct (holds_len _ _ _ Hh) as (Q1 & Q2 & Q3). rewrite len4 in Q2.
  apply convert_scalars_wp; auto; cbn [smem with_mem].
  { eapply (wrote_holds _ _ _ _ _ _ _ W1); [eapply off_sub; [exact HP|lia|change (zlen [14]) with 1; lia]|unfold zlen; rewrite len4; exact Hi|exact Hh]. }
  { lia. } { fold bs. unfold zlen in Hb. lia. } { fold bs. unfold zlen in Hs. lia. }
  { fold bs. change (Z.of_nat (length bs)) with (zlen bs). destruct cs as [|c0 cs']; [cbn [length]; unfold bs; cbn; lia|].
    set (N := 4 * Z.of_nat (length (c0 :: cs'))) in *. assert (0 < N) by (unfold N; cbn [length]; lia).
    destruct (Z_le_gt_dec (o + N) (a + (off + 5))); [left; lia|]. destruct (Z_le_gt_dec (a + (off + 5) + zlen bs) o); [right; lia|]. exfalso.
    assert (HB1 : 1 <= zlen bs). { unfold bs. rewrite utf8_cons, zlen_app. pose proof (utf8_char_len c0). pose proof (zlen_nonneg (utf8 cs')). unfold zlen at 1. lia. }
    set (y := Z.max o (a + (off + 5))). assert (HY : P y) by (apply Hi; unfold y; lia). apply HP in HY. unfold y in HY. lia. }
  unfold qcall. cbn [cont ret_call rev app]. fold bs. change (Z.of_nat (length bs)) with (zlen bs). rewrite with_mem_twice.
  set (m2 := write_bytes m1 (a + (off + 5)) bs).
  assert (W2 : wrote m1 m2 (a + (off + 5)) bs) by (apply wrote_write; [lia|lia|apply utf8_bytes; auto]).
  pose proof (wrote_size _ _ _ _ W2) as S2. clearbody m2. unfold setstk. cbn [clocals cstack cstore].
  apply wp_ltee. eapply wp_lget; [lk|]. apply wp_const. apply wp_add32; [lia|]. eapply wp_lget; [lk|].
  apply wp_be32; [lia|lia|cbn [smem with_mem]; lia|]. intros m3 W3. cbn [smem with_mem] in W3. rewrite with_mem_twice.
  apply wp_const. apply wp_add32; [lia|]. rewrite (Z.add_comm (zlen bs) 5). apply HW.
  - repeat (apply lkeep_new2; [lia|]). apply lkeep_refl.
  - eapply wrote_cons; [exact W1|]. eapply wrote_app_rev; [|replace (a + off + 1) with (a + (off + 1)) by lia; exact W3].
    unfold u32_be. rewrite zlen_be. replace (a + off + 1 + Z.of_nat 4) with (a + (off + 5)) by lia. exact W2.
Qed.

Lemma sip_pos v : 1 <= zlen (sip005 v).
Proof. destruct v; cbn [sip005]; rewrite ?zlen_cons; try (pose proof (zlen_nonneg (A:=Z)); match goal with |- 1 <= 1 + zlen ?x => pose proof (zlen_nonneg x) end; lia);
  destruct p; cbn [sip005_prin]; rewrite zlen_cons; match goal with |- 1 <= 1 + zlen ?x => pose proof (zlen_nonneg x) end; lia. Qed.

Definition ser_right (t : ty) : Prop := ty_ok t -> forall l ol off c l', serialize_to_memory lit t ol off l = (c, l') -> lwf l -> live l ol -> sers t c l l' ol off.

Lemma ser_opt_ok t : ser_right t -> ser_right (TOpt t).
Proof.
  intros IH Hok l ol off c l' H Hw Hl. cbn [serialize_to_memory] in H.
  destruct (save_to_locals t l) as [[is c1] l1] eqn:E1. destruct (serialize_to_memory lit t ol (off + 1) l1) as [cs l2] eqn:E2.
  assert (Hc := f_equal fst H). assert (Hl' := f_equal snd H). cbn [fst snd] in Hc, Hl'. subst c l'. clear H.
  destruct (save_ok E _ _ _ _ _ E1 Hw) as (A1 & A2 & A3 & A4).
  destruct (IH Hok _ _ _ _ _ E2 (lext_wf _ _ A1) (lext_live _ _ _ A1 Hl)) as (X1 & X2). pose proof (lext_len _ _ X1).
  split; [eapply lext_trans; eauto|]. intros js ls k st a v ws P Q Hol Hn Ht Hr Hlit Ha Ho Hb Hs HP HW.
  destruct v as [| | | | | | | | | |v| | |]; cbn [rep has_type] in Hr, Ht; try contradiction; destruct Hr as (ws' & -> & Hr).
  - (* none *)
    cbn [rev]. nrm. eapply A4; [rewrite (F2_len _ _ _ Hr); reflexivity|lia|]. intros ls1 K1 V1.
    apply wp_if0.
    rewrite <- (lkeep_get _ _ _ _ K1 Hl) in Hol. cbn [sip005] in *. change (zlen [9]) with 1 in *.
    eapply prefix_ok; [exact Hol|lia|lia|lia|lia|]. intros m1 W1. apply wp_const. apply wp_nil. wst. apply HW; auto.
  - (* some *)
    cbn [rev]. nrm. eapply A4; [exact (rep_len _ _ _ _ _ Hr)|lia|]. intros ls1 K1 V1.
    apply wp_if1.
    rewrite <- (lkeep_get _ _ _ _ K1 Hl) in Hol. cbn [sip005 lits] in *. rewrite zlen_cons in *. pose proof (zlen_nonneg (sip005 v)).
    eapply prefix_ok; [exact Hol|lia|lia|lia|lia|]. intros m1 W1. pose proof (wrote_size _ _ _ _ W1) as S1.
    assert (HP1 : off_limits P (a + off) (zlen [10])) by (eapply off_sub; [exact HP|lia|change (zlen [10]) with 1; lia]).
    apply wp_lgets with (vs := ws'); [exact V1|].
    eapply X2 with (P := P); [exact Hol|rewrite (lkeep_len _ _ _ K1); lia|exact Ht|eapply wrote_rep; eauto|eapply wrote_lits; eauto|lia|lia|cbn [smem with_mem]; lia|lia| |].
    { eapply off_sub; [exact HP|lia|lia]. }
    intros ls2 m2 K2 W2. cbn [smem with_mem] in W2. rewrite with_mem_twice.
    apply wp_const. apply wp_add32; [lia|]. apply wp_nil. wst. rewrite (Z.add_comm _ 1). apply HW.
    + eapply lkeep_trans; eauto.
    + eapply wrote_cons; [exact W1|]. replace (a + off + 1) with (a + (off + 1)) by lia. exact W2.
Qed.

Lemma ser_resp_ok t e : ser_right t -> ser_right e -> ser_right (TResp t e).
Proof.
  intros IHt IHe (Hok1 & Hok2) l ol off c l' H Hw Hl. cbn [serialize_to_memory] in H.
  destruct (save_to_locals e l) as [[es c1] l1] eqn:E1. destruct (save_to_locals t l1) as [[os c2] l2] eqn:E2.
  destruct (serialize_to_memory lit t ol (off + 1) l2) as [co l3] eqn:E3. destruct (serialize_to_memory lit e ol (off + 1) l3) as [ce l4] eqn:E4.
  assert (Hc := f_equal fst H). assert (Hl' := f_equal snd H). cbn [fst snd] in Hc, Hl'. subst c l'. clear H.
  destruct (save_ok E _ _ _ _ _ E1 Hw) as (A1 & A2 & A3 & A4).
  destruct (save_ok E _ _ _ _ _ E2 (lext_wf _ _ A1)) as (B1 & B2 & B3 & B4).
  pose proof (lext_trans _ _ _ A1 B1) as L12.
  destruct (IHt Hok1 _ _ _ _ _ E3 (lext_wf _ _ B1) (lext_live _ _ _ L12 Hl)) as (X1 & X2).
  destruct (IHe Hok2 _ _ _ _ _ E4 (lext_wf _ _ X1) (lext_live _ _ _ X1 (lext_live _ _ _ L12 Hl))) as (Y1 & Y2).
  pose proof (lext_len _ _ X1). pose proof (lext_len _ _ Y1). pose proof (lext_len _ _ B1).
  split; [eapply lext_trans; [exact L12|]; eapply lext_trans; eauto|]. intros js ls k st a v ws P Q Hol Hn Ht Hr (Hlit1 & Hlit2) Ha Ho Hb Hs HP HW.
  assert (SAVE : forall b ws1 ws2 js2 Q2, ws = VI32 b :: ws1 ++ ws2 -> length ws1 = length (clar2wasm_ty t) -> length ws2 = length (clar2wasm_ty e) ->
     (forall ls1, lkeep l ls ls1 -> lvals ls1 os ws1 -> lvals ls1 es ws2 -> wp js2 (mkcfg ls1 (VI32 b :: k) st) Q2) ->
     wp (c1 ++ c2 ++ js2) (mkcfg ls (rev ws ++ k) st) Q2).
  { intros b ws1 ws2 js2 Q2 -> N1 N2 HK. cbn [rev]. rewrite rev_app_distr, <- !app_assoc. cbn [app].
    eapply A4; [exact N2|lia|]. intros ls1 K1 V1. eapply B4; [exact N1|rewrite (lkeep_len _ _ _ K1); lia|]. intros ls2 K2 V2.
    apply HK; [exact (lkeep_trans _ _ _ _ _ A1 K1 K2)|exact V2|]. eapply lvals_keep; [exact K2|exact A2|exact V1]. }
  destruct v as [| | | | | | | | | | |v|v|]; cbn [rep has_type] in Hr, Ht; try contradiction; destruct Hr as (ws1 & ws2 & -> & Hr1 & Hr2).
  - (* ok *)
    nrm. eapply SAVE; [reflexivity|exact (rep_len _ _ _ _ _ Hr1)|rewrite (F2_len _ _ _ Hr2); reflexivity|]. intros ls1 K1 V1 V2.
    apply wp_if1.
    rewrite <- (lkeep_get _ _ _ _ K1 Hl) in Hol. cbn [sip005 lits] in *. rewrite zlen_cons in *. pose proof (zlen_nonneg (sip005 v)).
    eapply prefix_ok; [exact Hol|lia|lia|lia|lia|]. intros m1 W1. pose proof (wrote_size _ _ _ _ W1) as S1.
    assert (HP1 : off_limits P (a + off) (zlen [7])) by (eapply off_sub; [exact HP|lia|change (zlen [7]) with 1; lia]).
    apply wp_lgets with (vs := ws1); [exact V1|]. rewrite <- (app_nil_r co).
    eapply X2 with (P := P); [exact Hol|rewrite (lkeep_len _ _ _ K1); lia|exact Ht|eapply wrote_rep; eauto|eapply wrote_lits; eauto|lia|lia|cbn [smem with_mem]; lia|lia| |].
    { eapply off_sub; [exact HP|lia|lia]. }
    intros ls2 m2 K2 W2. cbn [smem with_mem] in W2. rewrite with_mem_twice. apply wp_nil. wst.
    apply wp_const. apply wp_add32; [lia|]. rewrite (Z.add_comm _ 1). apply HW.
    + exact (lkeep_trans _ _ _ _ _ L12 K1 K2).
    + eapply wrote_cons; [exact W1|]. replace (a + off + 1) with (a + (off + 1)) by lia. exact W2.
  - (* err *)
    nrm. eapply SAVE; [reflexivity|rewrite (F2_len _ _ _ Hr1); reflexivity|exact (rep_len _ _ _ _ _ Hr2)|]. intros ls1 K1 V1 V2.
    apply wp_if0.
    rewrite <- (lkeep_get _ _ _ _ K1 Hl) in Hol. cbn [sip005 lits] in *. rewrite zlen_cons in *. pose proof (zlen_nonneg (sip005 v)).
    eapply prefix_ok; [exact Hol|lia|lia|lia|lia|]. intros m1 W1. pose proof (wrote_size _ _ _ _ W1) as S1.
    assert (HP1 : off_limits P (a + off) (zlen [8])) by (eapply off_sub; [exact HP|lia|change (zlen [8]) with 1; lia]).
    apply wp_lgets with (vs := ws2); [exact V2|]. rewrite <- (app_nil_r ce).
    eapply Y2 with (P := P); [exact Hol|rewrite (lkeep_len _ _ _ K1); lia|exact Ht|eapply wrote_rep; eauto|eapply wrote_lits; eauto|lia|lia|cbn [smem with_mem]; lia|lia| |].
    { eapply off_sub; [exact HP|lia|lia]. }
    intros ls2 m2 K2 W2. cbn [smem with_mem] in W2. rewrite with_mem_twice. apply wp_nil. wst.
    apply wp_const. apply wp_add32; [lia|]. rewrite (Z.add_comm _ 1). apply HW.
    + eapply lkeep_trans; [eapply lext_trans; [exact L12|exact X1]|exact K1|exact K2].
    + eapply wrote_cons; [exact W1|]. replace (a + off + 1) with (a + (off + 1)) by lia. exact W2.
Qed.

(** lists *)
Lemma sip_list_pos vs : Z.of_nat (length vs) <= zlen (flat_map sip005 vs).
Proof. induction vs as [|v vs IH]; [cbn; lia|]. cbn [flat_map length]. rewrite zlen_app. pose proof (sip_pos v). lia. Qed.

Lemma ser_list_ok n t : ser_right t -> ser_right (TList n t).
Proof.
  intros IH (Hn0 & Hok) l ol off c l' H Hw Hl. cbn [serialize_to_memory] in H. rewrite add_one, !add_more in H. cbn [length app] in H.
  set (size := get_type_size t) in *. pose proof (size_pos t Hok) as Hsz. fold size in Hsz.
  destruct (serialize_to_memory lit t (llen l) 0 (more l [T32; T32; T32])) as [ce l4] eqn:E4.
  assert (Hc := f_equal fst H). assert (Hl' := f_equal snd H). cbn [fst snd] in Hc, Hl'. subst c l'. clear H.
  set (l3 := more l [T32; T32; T32]) in *. set (w := llen l) in *. set (r := (w + 1)%nat) in *. set (nn := (w + 2)%nat) in *.
  assert (Lw : live l3 w) by (unfold l3, w; replace (llen l) with (llen l + 0)%nat by lia; apply live_new; [auto|cbn; lia]).
  assert (Lr : live l3 r) by (unfold l3, r, w; apply live_new; [auto|cbn; lia]).
  assert (Ln : live l3 nn) by (unfold l3, nn, w; apply live_new; [auto|cbn; lia]).
  assert (L3 : lext l l3) by (apply more_ext; auto).
  destruct (IH Hok _ _ _ _ _ E4 (lext_wf _ _ L3) Lw) as (X1 & X2). pose proof (lext_len _ _ X1) as HL4.
  assert (L3n : llen l3 = (w + 3)%nat) by (unfold l3; rewrite llen_more; reflexivity).
  split; [eapply lext_trans; eauto|]. intros js ls k st a v ws P Q Hol Hn Ht Hr Hlit Ha Ho Hb Hs HP HW.
  destruct v as [| | | | | | | |vs| | | | |]; cbn [rep has_type] in Hr, Ht; try contradiction.
  destruct Hr as (o & -> & Ho1 & Hln & Hmem & Hin & Hel). change (rep_elems (smem st) P t vs o) in Hel. rewrite words_size_ty in *. fold size in Hln, Hmem, Hin.
  destruct Ht as (_ & Ht). cbn [sip005 lits] in *. rewrite zlen_cons, zlen_app in *. unfold u32_be in Hb, Hs, HP, HW. rewrite zlen_be in *.
  set (B := flat_map sip005 vs) in *. pose proof (zlen_nonneg B) as HB. assert (HBv : Z.of_nat (length vs) <= zlen B) by apply sip_list_pos.
  pose proof (live_lt _ _ Hl) as Hlt. fold w in Hlt.
  cbn [rev app]. nrm.
  eapply prefix_ok; [exact Hol|lia|lia|lia|lia|]. intros m1 W1. pose proof (wrote_size _ _ _ _ W1) as S1.
  apply wp_lset. apply wp_lset. fold size. set (N := Z.of_nat (length vs) * size) in *.
  eapply wp_lget; [lk|]. apply wp_eqz32. apply wp_if_bool; intros HZ; cbn [firstn skipn].
  { apply Z.eqb_eq in HZ. assert (vs = []) as -> by (destruct vs; [reflexivity|unfold N in HZ; cbn [length] in HZ; nia]).
    eapply wp_lget; [lk|]. apply wp_const. eapply wp_store; [reflexivity|cbn [stbytes smem with_mem]; unfold B in Hb; cbn in Hb; lia|].
    cbn [stbytes smem with_mem]. rewrite with_mem_twice. apply wp_const. apply wp_nil. wst. unfold B in *. cbn [flat_map] in *. apply HW.
    - repeat (apply lkeep_new2; [lia|]). apply lkeep_refl.
    - rewrite app_nil_r. eapply wrote_cons; [exact W1|]. rewrite stn_write. change (le_bytes 4 0) with (be_bytes 4 0).
      replace (a + off + 1) with (a + (off + 1)) by lia. change (zlen (@nil value)) with 0. apply wrote_write; [lia|rewrite zlen_be; change (zlen (@nil Z)) with 0 in *; lia|apply be_bytes_byte]. }
  apply Z.eqb_neq in HZ.
  eapply wp_lget; [lk|]. apply wp_const. apply wp_add32; [lia|]. apply wp_ltee. eapply wp_lget; [lk|]. apply wp_const.
  apply wp_divu32; [lia|]. replace (N / size) with (zlen vs) by (unfold N, zlen; symmetry; apply Z.div_mul; lia).
  apply wp_be32; [unfold zlen; lia|lia|cbn [smem with_mem]; lia|]. intros m2 W2. cbn [smem with_mem] in W2. rewrite with_mem_twice. pose proof (wrote_size _ _ _ _ W2) as S2.
  assert (W12 : wrote (smem st) m2 (a + off) (11 :: u32_be (zlen vs))).
  { eapply wrote_cons; [exact W1|]. replace (a + off + 1) with (a + (off + 1)) by lia. exact W2. }
  eapply wp_lget; [lk|]. apply wp_const. apply wp_add32; [lia|]. apply wp_lset.
  set (ls0 := lset (lset (lset (lset ls nn _) r _) w _) w _).
  assert (K0 : lkeep l ls ls0) by (unfold ls0; repeat (apply lkeep_new2; [lia|]); apply lkeep_refl).
  assert (G1 : nth_error ls0 w = Some (VI32 (a + off + 5))) by (unfold ls0; rewrite lset_same by (rewrite !lset_len; lia); do 2 f_equal; lia).
  assert (G2 : nth_error ls0 r = Some (VI32 o)) by (unfold ls0; lk).
  assert (G3 : nth_error ls0 nn = Some (VI32 N)) by (unfold ls0; lk).
  clearbody ls0.
  eapply wp_loop0 with (z := Z.of_nat (length vs)) (I := fun z s =>
    exists lz mz p q, s = mkcfg lz [] (with_mem st mz) /\ lkeep l ls lz /\ vs = p ++ q /\ Z.of_nat (length q) = z /\ z <> 0 /\
      wrote (smem st) mz (a + off) ((11 :: u32_be (zlen vs)) ++ flat_map sip005 p) /\
      nth_error lz w = Some (VI32 (a + off + 5 + zlen (flat_map sip005 p))) /\ nth_error lz r = Some (VI32 (o + Z.of_nat (length p) * size)) /\ nth_error lz nn = Some (VI32 (z * size))).
  - lia.
  - exists ls0, m2, [], vs. split; [reflexivity|]. split; [exact K0|]. split; [reflexivity|]. split; [reflexivity|].
    split; [intros HX; apply HZ; unfold N; rewrite HX; reflexivity|]. cbn [flat_map length]. rewrite app_nil_r. split; [exact W12|].
    rewrite G1, G2, G3. change (zlen (@nil Z)) with 0. split; [do 2 f_equal; lia|]. split; [do 2 f_equal; lia|reflexivity].
  - intros z lz st' Hz (lz' & mz & p & q & EQ & Kz & EV & Hq & Hz0 & Wz & I1 & I2 & I3).
    apply cfg_inj in EQ. destruct EQ as (<- & ->). destruct q as [|x q]; [cbn in Hq; lia|].
    assert (HBs : B = flat_map sip005 p ++ sip005 x ++ flat_map sip005 q) by (unfold B; rewrite EV, flat_map_app; reflexivity).
    set (done := flat_map sip005 p) in *. pose proof (zlen_nonneg done) as Hd. pose proof (sip_pos x) as Hx. pose proof (zlen_nonneg (flat_map sip005 q)) as Hqn.
    assert (HBz : zlen B = zlen done + (zlen (sip005 x) + zlen (flat_map sip005 q))) by (rewrite HBs, !zlen_app; reflexivity).
    pose proof (wrote_size _ _ _ _ Wz) as Sz.
    assert (Lz : length lz = length ls) by exact (lkeep_len _ _ _ Kz).
    assert (HPz : off_limits P (a + off) (zlen ((11 :: u32_be (zlen vs)) ++ done))).
    { eapply off_sub; [exact HP|lia|]. rewrite zlen_app, zlen_cons. unfold u32_be. rewrite zlen_be. lia. }
    assert (Hel2 : exists u, words_at mz (o + Z.of_nat (length p) * size) u /\ rep mz P t x u).
    { pose proof Hel as Hel1. rewrite EV in Hel1. apply rep_elems_suffix in Hel1. rewrite words_size_ty in Hel1. fold size in Hel1. cbn [rep_elems] in Hel1.
      destruct Hel1 as ((u & U1 & U2) & _). exists u. split.
      - unfold words_at in *. eapply (wrote_holds _ _ _ _ _ _ _ Wz HPz); [|exact U1]. intros y Hy. apply Hin.
        unfold zlen in Hy. rewrite (rep_words_len _ _ _ _ _ U2) in Hy. fold size in Hy. unfold N. rewrite EV, app_length. cbn [length].
        clear - Hy Hsz. nia.
      - eapply wrote_rep; eauto. }
    destruct Hel2 as (u & U1 & U2).
    assert (Tx : has_type t x) by (rewrite EV in Ht; apply Forall_app in Ht; destruct Ht as (_ & Ht); inversion Ht; auto).
    eapply (read_memory_ok E t) with (a := o + Z.of_nat (length p) * size); [exact I2|exact (rep_typed _ _ _ _ _ U2)|rewrite Z.add_0_r; exact U1|].
    eapply X2 with (P := P) (v := x); [exact I1|lia|exact Tx|apply blank_rep; exact U2|eapply wrote_lits; eauto|lia|lia|cbn [smem with_mem]; lia|lia| |].
    { eapply off_sub; [exact HP|lia|lia]. }
    intros lz1 m3 Kz1 W3. cbn [smem with_mem] in W3. rewrite with_mem_twice. rewrite Z.add_0_r in W3.
    rewrite <- (lkeep_get _ _ _ _ Kz1 Lw) in I1. rewrite <- (lkeep_get _ _ _ _ Kz1 Lr) in I2. rewrite <- (lkeep_get _ _ _ _ Kz1 Ln) in I3.
    assert (Kz2 : lkeep l ls lz1) by (eapply lkeep_trans0; [exact Kz|]; eapply lkeep_weaken; [exact L3|exact Kz1]).
    assert (Lz1 : length lz1 = length ls) by exact (lkeep_len _ _ _ Kz2).
    eapply wp_lget; [exact I1|]. apply wp_add32; [lia|]. apply wp_lset.
    eapply wp_lget; [lk|]. apply wp_const. eapply wp_b32; [reflexivity|]. apply wp_lset.
    eapply wp_lget; [lk|]. apply wp_const. 
    assert (Hzs : 0 <= z * size - size < m32).
    { assert (z <= Z.of_nat (length vs)) by (rewrite EV, app_length; lia). unfold N in Hln. clear - Hln Hz Hz0 Hsz H. nia. }
    apply wp_sub32; [exact Hzs|]. apply wp_ltee.
    assert (W4 : wrote (smem st) m3 (a + off) ((11 :: u32_be (zlen vs)) ++ flat_map sip005 (p ++ [x]))).
    { rewrite flat_map_app. cbn [flat_map]. rewrite app_nil_r, app_assoc. eapply wrote_app; [exact Wz|]. fold done. rewrite zlen_app, zlen_cons. unfold u32_be. rewrite zlen_be.
      replace (a + off + (1 + Z.of_nat 4 + zlen done)) with (a + off + 5 + zlen done) by lia. exact W3. }
    apply wp_brif_eqz; intros HZ1.
    + apply wp_nil. wst. assert (z = 1) by (clear - HZ1 Hsz Hz Hz0; nia). assert (q = []) as -> by (destruct q; [reflexivity|cbn [length] in Hq; lia]).
      cbn [flat_map] in HBs. rewrite app_nil_r in HBs.
      eapply wp_lget; [lk|]. eapply wp_lget; [rewrite !lset_other by lia; rewrite (lkeep_get _ _ _ _ Kz2 Hl); exact Hol|]. apply wp_const.
      apply wp_add32; [lia|]. change (zlen (flat_map sip005 [])) with 0 in *. apply wp_sub32; [lia|]. apply wp_nil. wst. 
      replace (zlen (sip005 x) + (a + off + 5 + zlen done) - (a + off)) with (1 + (Z.of_nat 4 + zlen B)) by lia. apply HW.
      * repeat (apply lkeep_new2; [lia|]). exact Kz2.
      * replace B with (flat_map sip005 (p ++ [x])) by (unfold B; rewrite EV; reflexivity). exact W4.
    + wst. exists (z - 1). split; [lia|]. exists (lset (lset (lset lz1 w (VI32 (zlen (sip005 x) + (a + off + 5 + zlen done)))) r (VI32 ((o + Z.of_nat (length p) * size + size) mod m32))) nn (VI32 (z * size - size))), m3, (p ++ [x]), q.
      split; [reflexivity|]. split; [repeat (apply lkeep_new2; [lia|]); exact Kz2|]. split; [rewrite <- app_assoc; exact EV|]. cbn [length] in Hq. split; [lia|].
      assert (HZ2 : z - 1 <> 0) by (intros HX; apply HZ1; replace z with 1 by lia; lia). split; [exact HZ2|]. split; [exact W4|].
      split; [|split].
      * rewrite lset_other by lia. rewrite lset_other by lia. rewrite lset_same by lia. rewrite flat_map_app, zlen_app. cbn [flat_map]. rewrite app_nil_r. fold done. do 2 f_equal. lia.
      * rewrite lset_other by lia. rewrite lset_same by (rewrite lset_len; lia). rewrite app_length. cbn [length]. do 2 f_equal.
        rewrite Z.mod_small; [lia|]. assert (Z.of_nat (length vs) = Z.of_nat (length p) + z) by (rewrite EV, app_length; cbn [length]; lia).
        assert (2 <= z) by lia. clear - Hmem Ho1 Hsz H H0. unfold N in *. nia.
      * rewrite lset_same by (rewrite !lset_len; lia). do 2 f_equal. lia.
Qed.

(** tuples *)
Definition ser_fields (w : nat) : list (string * ty) -> list nat -> lst -> list instr * lst :=
  fix go (fs : list (string * ty)) (is : list nat) (l : lst) {struct fs} : list instr * lst :=
   match fs with
   | [] => ([], l)
   | (k, t') :: fs =>
       let n := length (clar2wasm_ty t') in
       let '(cv, l) := serialize_to_memory lit t' w 0 l in
       let '(cr, l) := go fs (skipn n is) l in
       ([Const (VI32 (Z.of_nat (String.length k))); Store S32_8 0;
         LGet w; Const (VI32 1); B32 Add; LTee w;
         Const (VI32 (lit k)); Const (VI32 (Z.of_nat (String.length k))); MemCopy;
         LGet w; Const (VI32 (Z.of_nat (String.length k))); B32 Add; LSet w] ++
        push_locals (firstn n is) ++ cv ++
        [LGet w; B32 Add; LTee w] ++ cr, l)
   end.

Lemma sip_fields_pos fs : Z.of_nat (length fs) <= zlen (sip005_fields fs).
Proof.
  induction fs as [|[k v] fs IH]; [cbn; lia|]. cbn [sip005_fields length]. rewrite zlen_cons, !zlen_app. fold sip005_fields.
  pose proof (sip_pos v). pose proof (zlen_nonneg (chars k)). lia.
Qed.

Lemma ser_fields_ok w l0 fs : Forall (fun f => ser_right (snd f)) fs -> fields_ok fs -> forall l is c l', ser_fields w fs is l = (c, l') -> lwf l -> live l w -> ~ live l0 w -> lext l0 l ->
  Forall (live l) is -> ~ In w is -> 
  lext l l' /\
  forall js ls k (st : store HS) a vs ws P Q, nth_error ls w = Some (VI32 a) -> (llen l' <= length ls)%nat -> lvals ls is ws ->
    has_type (TTuple fs) (CTuple vs) -> rep_fields (smem st) P fs vs ws -> lits_fields (smem st) P fs ->
    0 <= a -> a + zlen (sip005_fields vs) <= msize (smem st) <= m32 -> a + zlen (sip005_fields vs) < m32 ->
    off_limits P a (zlen (sip005_fields vs)) ->
    (forall ls' m', lkeep l0 ls ls' -> nth_error ls' w = Some (VI32 (a + zlen (sip005_fields vs))) -> wrote (smem st) m' a (sip005_fields vs) ->
       wp js (mkcfg ls' (VI32 (a + zlen (sip005_fields vs)) :: k) (with_mem st m')) Q) ->
    wp (c ++ js) (mkcfg ls (VI32 a :: k) st) Q.
Proof.
  intros HF. induction HF as [|[kk t] fs IHt HF IH]; intros Hok l is c l' H Hw Lw Nw L0 Lis Nis.
  - cbn [ser_fields] in H. assert (Hc := f_equal fst H). assert (Hl' := f_equal snd H). cbn [fst snd] in Hc, Hl'. subst c l'. clear H.
    split; [apply lext_refl; auto|]. intros js ls k st a vs ws P Q Hwl Hn V Ht Hr Hlit Ha Hb Hs HP HW.
    destruct vs as [|[? ?] vs]; cbn in Hr; [|contradiction]. cbn [sip005_fields app] in *. change (zlen (@nil Z)) with 0 in *. rewrite Z.add_0_r in *.
    rewrite <- (with_mem_same st). apply HW; [apply lkeep_refl|exact Hwl|apply wrote_nil; lia].
  - cbn [ser_fields] in H. destruct (serialize_to_memory lit t w 0 l) as [cv l1] eqn:E1.
    destruct (ser_fields w fs (skipn (length (clar2wasm_ty t)) is) l1) as [cr l2] eqn:E2. 
    change ((([Const (VI32 (Z.of_nat (String.length kk))); Store S32_8 0; LGet w; Const (VI32 1); B32 Add; LTee w;
         Const (VI32 (lit kk)); Const (VI32 (Z.of_nat (String.length kk))); MemCopy; LGet w; Const (VI32 (Z.of_nat (String.length kk))); B32 Add; LSet w] ++
        push_locals (firstn (length (clar2wasm_ty t)) is) ++ cv ++ [LGet w; B32 Add; LTee w] ++ cr), l2) = (c, l')) in H.
    assert (Hc := f_equal fst H). assert (Hl' := f_equal snd H). cbn [fst snd] in Hc, Hl'. subst c l'. clear H.
    cbn [snd fields_ok] in *. destruct Hok as (Hok1 & Hok2).
    destruct (IHt Hok1 _ _ _ _ _ E1 Hw Lw) as (X1 & X2).
    assert (Lsk : Forall (live l1) (skipn (length (clar2wasm_ty t)) is)).
    { apply Forall_forall. intros i Hi. eapply lext_live; [exact X1|]. rewrite Forall_forall in Lis. apply Lis. rewrite <- (firstn_skipn (length (clar2wasm_ty t)) is). apply in_or_app. auto. }
    destruct (IH Hok2 _ _ _ _ E2 (lext_wf _ _ X1) (lext_live _ _ _ X1 Lw) Nw (lext_trans _ _ _ L0 X1) Lsk) as (Y1 & Y2).
    { intros Hi. apply Nis. rewrite <- (firstn_skipn (length (clar2wasm_ty t)) is). apply in_or_app. auto. }
    pose proof (lext_len _ _ Y1) as HY1. pose proof (lext_len _ _ X1) as HX1.
    split; [eapply lext_trans; eauto|]. intros js ls k st a vs ws P Q Hwl Hn V Ht Hr (Hlit1 & Hlit2 & Hlit3) Ha Hb Hs HP HW.
    destruct vs as [|[kk' v] vs]; cbn [rep_fields] in Hr; [contradiction|]. destruct Hr as (ws1 & ws2 & <- & -> & Hr1 & Hr2).
    destruct Ht as (_ & Ht1 & Ht2). change (has_type (TTuple fs) (CTuple vs)) in Ht2.
    change (sip005_fields ((kk, v) :: vs)) with (zlen (chars kk) :: chars kk ++ sip005 v ++ sip005_fields vs) in *.
    rewrite zlen_cons, !zlen_app in *. rewrite <- (chars_len kk). set (N := zlen (chars kk)) in *.
    destruct Hlit1 as (HL1 & HL2 & HL3 & HL4). fold N in HL2. pose proof (zlen_nonneg (chars kk)) as HN. fold N in HN. pose proof (sip_pos v) as Hv. pose proof (zlen_nonneg (sip005_fields vs)) as Hvs.
    pose proof (rep_len _ _ _ _ _ Hr1) as Len1.
    rewrite <- (firstn_skipn (length (clar2wasm_ty t)) is) in V.
    assert (Lenis : length (firstn (length (clar2wasm_ty t)) is) = length ws1).
    { rewrite firstn_length. pose proof (F2_len _ _ _ V) as HH. rewrite firstn_skipn, app_length in HH. lia. }
    apply lvals_app in V; [|exact Lenis]. destruct V as (V1 & V2).
    pose proof (live_lt _ _ Lw) as Hwlt. cbn [app]. apply wp_const. rewrite <- ?app_assoc.
    apply wp_byte; [lia|lia|lia|]. intros m1 W1. rewrite Z.add_0_r in W1. pose proof (wrote_size _ _ _ _ W1) as S1.
    eapply wp_lget; [exact Hwl|]. apply wp_const. apply wp_add32; [lia|]. apply wp_ltee. apply wp_const. apply wp_const.
    eapply wp_copy with (bs := chars kk); [cbn [smem with_mem]|reflexivity|lia|cbn [smem with_mem]; fold N; lia|].
    { eapply (wrote_holds _ _ _ _ _ _ _ W1); [eapply off_sub; [exact HP|lia|change (zlen [N]) with 1; lia]|exact HL4|exact HL3]. }
    intros m2 W2. cbn [smem with_mem] in W2. rewrite with_mem_twice. pose proof (wrote_size _ _ _ _ W2) as S2.
    pose proof (wrote_cons _ _ _ _ _ _ W1 W2) as W12.
    assert (HP2 : off_limits P a (zlen (N :: chars kk))) by (eapply off_sub; [exact HP|lia|rewrite zlen_cons; fold N; lia]).
    eapply wp_lget; [lk|]. apply wp_const. fold N. apply wp_add32; [lia|]. apply wp_lset.
    set (ls1 := lset (lset ls w _) w _).
    assert (G1 : nth_error ls1 w = Some (VI32 (a + 1 + N))) by (unfold ls1; lk).
    assert (Kw : forall l', ~ live l' w -> lkeep l' ls ls1) by (intros l'' HX; unfold ls1; eapply lkeep_trans0; apply lkeep_lset; auto).
    assert (Klv : forall js ws, lvals ls js ws -> ~ In w js -> lvals ls1 js ws).
    { intros js' ws' HV Hni. unfold ls1, lvals in *. revert Hni. induction HV; intros Hni; constructor.
      - rewrite !lset_other by (intros ->; apply Hni; left; reflexivity). assumption.
      - apply IHHV. intros HX; apply Hni; right; exact HX. }
    assert (Ll1 : length ls1 = length ls) by (unfold ls1; rewrite !lset_len; reflexivity).
    clearbody ls1.
    apply wp_lgets with (vs := ws1); [apply Klv; [exact V1|]|].
    { intros HX. apply Nis. rewrite <- (firstn_skipn (length (clar2wasm_ty t)) is). apply in_or_app. auto. }
    eapply X2 with (P := P) (v := v); [exact G1|lia|exact Ht1|eapply wrote_rep; eauto|eapply wrote_lits; eauto|lia|lia|cbn [smem with_mem]; lia|lia| |].
    { eapply off_sub; [exact HP|lia|lia]. }
    intros ls2 m3 K2 W3. cbn [smem with_mem] in W3. rewrite with_mem_twice, Z.add_0_r in *. pose proof (wrote_size _ _ _ _ W3) as S3.
    pose proof (lkeep_get _ _ _ _ K2 Lw) as G2. rewrite G1 in G2.
    eapply wp_lget; [exact G2|]. apply wp_add32; [lia|]. apply wp_ltee.
    assert (W123 : wrote (smem st) m3 a ((N :: chars kk) ++ sip005 v)).
    { eapply wrote_app; [exact W12|]. rewrite zlen_cons. fold N. replace (a + (1 + N)) with (a + 1 + N) by lia. exact W3. }
    assert (HP3 : off_limits P a (zlen ((N :: chars kk) ++ sip005 v))) by (eapply off_sub; [exact HP|lia|rewrite zlen_app, zlen_cons; fold N; lia]).
    assert (Ll2 : length ls2 = length ls) by (rewrite (lkeep_len _ _ _ K2); exact Ll1).
    assert (K3 : lkeep l0 ls (lset ls2 w (VI32 (zlen (sip005 v) + (a + 1 + N))))).
    { eapply lkeep_trans0; [apply (Kw l0 Nw)|]. eapply lkeep_trans0; [eapply lkeep_weaken; [exact L0|exact K2]|]. apply lkeep_lset. exact Nw. }
    assert (V3 : lvals (lset ls2 w (VI32 (zlen (sip005 v) + (a + 1 + N)))) (skipn (length (clar2wasm_ty t)) is) ws2).
    { assert (Hni : ~ In w (skipn (length (clar2wasm_ty t)) is)).
      { intros HX. apply Nis. rewrite <- (firstn_skipn (length (clar2wasm_ty t)) is). apply in_or_app. auto. }
      pose proof (Klv _ _ V2 Hni) as V3. eapply lvals_keep in V3; [|exact K2|].
      - unfold lvals in *. clear - V3 Hni. revert Hni. induction V3; intros Hni; constructor.
        + rewrite !lset_other by (intros ->; apply Hni; left; reflexivity). assumption.
        + apply IHV3. intros HX; apply Hni; right; exact HX.
      - apply Forall_forall. intros i Hi. rewrite Forall_forall in Lis. apply Lis. rewrite <- (firstn_skipn (length (clar2wasm_ty t)) is). apply in_or_app. auto. }
    eapply Y2 with (P := P) (vs := vs) (ws := ws2); [lk|rewrite lset_len; lia|exact V3|exact Ht2| | |lia|cbn [smem with_mem]; lia|lia| |].
    { change (rep (with_mem st m3).(smem) P (TTuple fs) (CTuple vs) ws2). eapply wrote_rep; [exact W123|exact HP3|exact Hr2]. }
    { cbn [smem with_mem]. eapply (wrote_lits _ _ _ _ _ (TTuple fs)); [exact W123|exact HP3|exact Hlit3]. }
    { eapply off_sub; [exact HP|lia|lia]. }
    intros ls3 m4 K4 G4 W4. cbn [smem with_mem] in W4. rewrite with_mem_twice.
    replace (zlen (sip005 v) + (a + 1 + N) + zlen (sip005_fields vs)) with (a + (1 + (N + (zlen (sip005 v) + zlen (sip005_fields vs))))) in * by lia.
    apply HW.
    + eapply lkeep_trans0; [exact K3|exact K4].
    + exact G4.
    + replace (N :: chars kk ++ sip005 v ++ sip005_fields vs) with (((N :: chars kk) ++ sip005 v) ++ sip005_fields vs) by (rewrite <- app_assoc; reflexivity).
      eapply wrote_app; [exact W123|]. rewrite zlen_app, zlen_cons. fold N. replace (a + (1 + N + zlen (sip005 v))) with (zlen (sip005 v) + (a + 1 + N)) by lia. exact W4.
Qed.

Lemma ser_tuple_ok fs : Forall (fun f => ser_right (snd f)) fs -> ser_right (TTuple fs).
Proof.
  intros HF Hok l ol off c l' H Hw Hl. rewrite ty_ok_tuple in Hok. destruct Hok as (_ & _ & Hok). cbn [serialize_to_memory] in H. rewrite add_one in H.
  set (w := llen l) in *. set (l1 := more l [T32]) in *.
  destruct (save_to_locals (TTuple fs) l1) as [[is cs] l2] eqn:E2.
  change ((let '(cf, l0) := ser_fields w fs is l2 in
    (cs ++ ser_prefix 12 ol off ++ [LGet ol; Const (VI32 (off + 1)); B32 Add; LTee w; Const (VI32 (Z.of_nat (length fs))); Call "stdlib.store-i32-be"; LGet w; Const (VI32 4); B32 Add; LTee w] ++
     cf ++ [LGet ol; Const (VI32 off); B32 Add; B32 Sub], l0)) = (c, l')) in H.
  destruct (ser_fields w fs is l2) as [cf l3] eqn:E3.
  assert (Hc := f_equal fst H). assert (Hl' := f_equal snd H). cbn [fst snd] in Hc, Hl'. subst c l'. clear H.
  assert (A1 : lext l l1) by (apply more_ext; auto).
  assert (Lw : live l1 w) by (unfold l1, w; replace (llen l) with (llen l + 0)%nat by lia; apply live_new; [auto|cbn; lia]).
  destruct (save_ok E _ _ _ _ _ E2 (lext_wf _ _ A1)) as (B1 & B2 & B3 & B4).
  assert (Nis : ~ In w is).
  { intros Hi. unfold save_to_locals in E2. destruct (add_locals _ l1) as [n' l2'] eqn:F2. injection E2 as <- _ _.
    destruct (add_locals_ok _ _ _ _ F2 (lext_wf _ _ A1)) as (_ & _ & D3 & _). apply in_rev in Hi. rewrite Forall_forall in D3. exact (D3 _ Hi Lw). }
  assert (Nw : ~ live l w) by (intros HX; apply live_lt in HX; unfold w in HX; lia).
  pose proof (lext_trans _ _ _ A1 B1) as L2.
  destruct (ser_fields_ok w l fs HF Hok _ _ _ _ E3 (lext_wf _ _ B1) (lext_live _ _ _ B1 Lw) Nw L2 B2 Nis) as (X1 & X2).
  pose proof (lext_len _ _ X1). pose proof (lext_len _ _ B1). pose proof (live_lt _ _ Lw).
  split; [eapply lext_trans; eauto|]. intros js ls k st a v ws P Q Hol Hn Ht Hr Hlit Ha Ho Hb Hs HP HW.
  destruct v as [| | | | | | | | | | | | |vs]; try (cbn in Hr; contradiction). rewrite rep_tuple in Hr. change (lits_fields (smem st) P fs) in Hlit.
  assert (Hln : length vs = length fs).
  { clear - Hr. revert vs ws Hr. induction fs as [|[? ?] fs IH]; intros [|[? ?] vs] ws Hr; cbn [rep_fields] in Hr; try contradiction; auto.
    destruct Hr as (? & ? & _ & _ & _ & Hr). cbn [length]. f_equal. eapply IH; eauto. }
  change (sip005 (CTuple vs)) with (12 :: u32_be (zlen vs) ++ sip005_fields vs) in *. rewrite zlen_cons, zlen_app in *. unfold u32_be in Hb, Hs, HP, HW. rewrite zlen_be in *.
  pose proof (zlen_nonneg (sip005_fields vs)) as Hz. pose proof (sip_fields_pos vs) as Hfp. fold (u32_be (zlen vs)) in HW.
  pose proof (live_lt _ _ Hl) as Hlt. fold w in Hlt.
  rewrite <- !app_assoc. eapply B4; [|lia|].
  { rewrite <- (F2_len _ _ _ (rep_typed _ _ (TTuple fs) (CTuple vs) ws Hr)). reflexivity. }
  intros ls1 K1 V1.
  assert (Hol1 : nth_error ls1 ol = Some (VI32 a)) by (rewrite (lkeep_get _ _ _ _ K1 (lext_live _ _ _ A1 Hl)); exact Hol).
  assert (Ll1 : length ls1 = length ls) by exact (lkeep_len _ _ _ K1).
  eapply prefix_ok; [exact Hol1|lia|lia|lia|lia|]. intros m1 W1. pose proof (wrote_size _ _ _ _ W1) as S1. cbn [app].
  eapply wp_lget; [exact Hol1|]. apply wp_const. apply wp_add32; [lia|]. apply wp_ltee. apply wp_const.
  apply wp_be32; [lia|lia|cbn [smem with_mem]; lia|]. intros m2 W2. cbn [smem with_mem] in W2. rewrite with_mem_twice. pose proof (wrote_size _ _ _ _ W2) as S2.
  rewrite <- Hln in W2. change (Z.of_nat (length vs)) with (zlen vs) in W2.
  assert (W12 : wrote (smem st) m2 (a + off) (12 :: u32_be (zlen vs))).
  { eapply wrote_cons; [exact W1|]. replace (a + off + 1) with (a + (off + 1)) by lia. exact W2. }
  assert (HP2 : off_limits P (a + off) (zlen (12 :: u32_be (zlen vs)))) by (eapply off_sub; [exact HP|lia|rewrite zlen_cons; unfold u32_be; rewrite zlen_be; lia]).
  eapply wp_lget; [lk|]. apply wp_const. apply wp_add32; [lia|]. apply wp_ltee.
  set (ls2 := lset (lset ls1 w _) w _).
  assert (G1 : nth_error ls2 w = Some (VI32 (a + (off + 1) + 4))) by (unfold ls2; lk).
  assert (Kw : lkeep l ls ls2).
  { unfold ls2. eapply lkeep_trans0; [eapply lkeep_weaken; [exact A1|exact K1]|]. eapply lkeep_trans0; apply lkeep_lset; auto. }
  assert (V2 : lvals ls2 is ws).
  { unfold ls2, lvals in *. clear - V1 Nis. revert Nis. induction V1; intros Hni; constructor.
    - rewrite !lset_other by (intros ->; apply Hni; left; reflexivity). assumption.
    - apply IHV1. intros HX; apply Hni; right; exact HX. }
  assert (Ll2 : length ls2 = length ls) by (unfold ls2; rewrite !lset_len; exact Ll1).
  clearbody ls2.
  eapply X2 with (P := P) (vs := vs) (ws := ws); [exact G1|lia|exact V2|exact Ht| | |lia|cbn [smem with_mem]; lia|lia| |].
  { change (rep (with_mem st m2).(smem) P (TTuple fs) (CTuple vs) ws). eapply wrote_rep; [exact W12|exact HP2|exact Hr]. }
  { cbn [smem with_mem]. eapply (wrote_lits _ _ _ _ _ (TTuple fs)); [exact W12|exact HP2|exact Hlit]. }
  { eapply off_sub; [exact HP|lia|lia]. }
  intros ls3 m3 K3 G3 W3. cbn [smem with_mem] in W3. rewrite with_mem_twice.
  pose proof (lkeep_trans0 _ _ _ _ Kw K3) as K4.
  eapply wp_lget; [rewrite (lkeep_get _ _ _ _ K4 Hl); exact Hol|]. apply wp_const. apply wp_add32; [lia|]. apply wp_sub32; [lia|].
  replace (a + (off + 1) + 4 + zlen (sip005_fields vs) - (a + off)) with (1 + (Z.of_nat 4 + zlen (sip005_fields vs))) by lia.
  apply HW; [exact K4|]. change (12 :: u32_be (zlen vs) ++ sip005_fields vs) with ((12 :: u32_be (zlen vs)) ++ sip005_fields vs).
  eapply wrote_app; [exact W12|]. rewrite zlen_cons. unfold u32_be. rewrite zlen_be. replace (a + off + (1 + Z.of_nat 4)) with (a + (off + 1) + 4) by lia. exact W3.
Qed.

Lemma ser_memory_ok t : ser_right t.
Proof.
  induction t using ty_ind'; try (apply ser_opt_ok; assumption); try (apply ser_resp_ok; assumption); try (apply ser_list_ok; assumption); try (apply ser_tuple_ok; assumption);
    intros Hok l ol off c l' HC Hw Hl; cbn [serialize_to_memory] in HC.
  - (* no type *)
    assert (Hc := f_equal fst HC). assert (Hl' := f_equal snd HC). cbn [fst snd] in Hc, Hl'. subst c l'.
    split; [apply lext_refl; auto|]. intros js ls k st a v ws P Q _ _ Ht. destruct v; cbn in Ht; contradiction.
  - (* int *)
    assert (L : lext l l') by (eapply (ser_int_ok TInt 0 0); eauto; lia). split; [exact L|].
    intros js ls k st a v ws P Q Hol Hn Ht Hr _ Ha Ho Hb Hs HP HW. destruct v; cbn [rep has_type] in Hr, Ht; try contradiction. subst ws.
    cbn [sip005] in *. rewrite zlen_cons, zlen_be in *.
    destruct (ser_int_ok TInt 0 (z mod 2 ^ 128) _ _ _ _ _ HC Hw Hl ltac:(lia) eq_refl) as (_ & X). cbn [rev app].
    replace (z / 2 ^ 64 mod 2 ^ 64) with ((z mod 2 ^ 128) / 2 ^ 64).
    2:{ change (2 ^ 128) with (2 ^ 64 * 2 ^ 64). rewrite Z.rem_mul_r by lia. rewrite Z.mul_comm, Z.div_add, Z.div_small by (try apply Z.mod_pos_bound; lia). lia. }
    replace (z mod 2 ^ 64) with ((z mod 2 ^ 128) mod 2 ^ 64).
    2:{ change (2 ^ 128) with (2 ^ 64 * 2 ^ 64). rewrite Z.rem_mul_r by lia. rewrite Z.mul_comm, Z.mod_add, Z.mod_mod by lia. reflexivity. }
    eapply X; [exact Hol|exact Hn|apply Z.mod_pos_bound; lia|lia|lia|lia|lia|exact HW].
  - (* uint *)
    assert (L : lext l l') by (eapply (ser_int_ok TUInt 1 0); eauto; lia). split; [exact L|].
    intros js ls k st a v ws P Q Hol Hn Ht Hr _ Ha Ho Hb Hs HP HW. destruct v; cbn [rep has_type] in Hr, Ht; try contradiction. subst ws.
    cbn [sip005] in *. rewrite zlen_cons, zlen_be in *.
    destruct (ser_int_ok TUInt 1 z _ _ _ _ _ HC Hw Hl ltac:(lia) eq_refl) as (_ & X). cbn [rev app].
    replace (z / 2 ^ 64 mod 2 ^ 64) with (z / 2 ^ 64) by (symmetry; apply Z.mod_small; split; [apply Z.div_pos; lia|apply Z.div_lt_upper_bound; lia]).
    eapply X; [exact Hol|exact Hn|lia|lia|lia|lia|lia|exact HW].
  - (* bool *)
    rewrite add_one in HC. assert (Hc := f_equal fst HC). assert (Hl' := f_equal snd HC). cbn [fst snd] in Hc, Hl'. subst c l'. clear HC.
    split; [apply more_ext; auto|]. intros js ls k st a v ws P Q Hol Hn Ht Hr _ Ha Ho Hb Hs HP HW. rewrite llen_more in Hn. cbn [length] in Hn. apply live_lt in Hl.
    destruct v; cbn [rep has_type] in Hr, Ht; try contradiction. subst ws. cbn [sip005] in *. change (zlen [if b then 3 else 4]) with 1 in *. cbn [rev app].
    apply wp_lset. eapply wp_lget; [lk|]. apply wp_const. apply wp_const. eapply wp_lget; [lk|].
    eapply wp_step1 with (s' := mkcfg (lset ls (llen l) (VI32 (if b then 1 else 0))) (VI32 (if b then 3 else 4) :: VI32 a :: k) st); [reflexivity|destruct b; reflexivity|].
    apply wp_byte; [destruct b; lia|lia|lia|]. intros m1 W1. apply wp_const. apply HW; [apply lkeep_new; lia|exact W1].
  - (* principal *)
    destruct (ser_prin_ok _ _ _ _ _ HC Hw Hl) as (L & X). split; [exact L|].
    intros js ls k st a v ws P Q Hol Hn Ht Hr _ Ha Ho Hb Hs HP HW. destruct v; cbn [rep has_type] in Hr, Ht; try contradiction. cbn [sip005] in *. eapply X; eauto.
  - (* trait reference *)
    destruct (ser_prin_ok _ _ _ _ _ HC Hw Hl) as (L & X). split; [exact L|].
    intros js ls k st a v ws P Q Hol Hn Ht Hr _ Ha Ho Hb Hs HP HW. destruct v; cbn [rep has_type] in Hr, Ht; try contradiction. cbn [sip005] in *.
    destruct Ht as (_ & Ht & _). destruct Hr as (_ & Hr). eapply X; eauto.
  - (* buff *)
    destruct (ser_bytes_ok _ _ _ _ _ _ HC Hw Hl ltac:(lia)) as (L & X). split; [exact L|].
    intros js ls k st a v ws P Q Hol Hn Ht Hr _ Ha Ho Hb Hs HP HW. destruct v; cbn [rep has_type] in Hr, Ht; try contradiction. cbn [sip005] in *.
    rewrite zlen_cons, zlen_app in *. unfold u32_be in Hb, Hs, HP, HW. rewrite zlen_be in *. rewrite Z.add_assoc in *. change (1 + Z.of_nat 4) with 5 in *. rewrite <- ?Z.add_assoc in *. eapply X; eauto; lia.
  - (* string-ascii *)
    destruct (ser_bytes_ok _ _ _ _ _ _ HC Hw Hl ltac:(lia)) as (L & X). split; [exact L|].
    intros js ls k st a v ws P Q Hol Hn Ht Hr _ Ha Ho Hb Hs HP HW. destruct v; cbn [rep has_type] in Hr, Ht; try contradiction. cbn [sip005] in *.
    rewrite zlen_cons, zlen_app in *. unfold u32_be in Hb, Hs, HP, HW. rewrite zlen_be in *. rewrite Z.add_assoc in *. change (1 + Z.of_nat 4) with 5 in *. rewrite <- ?Z.add_assoc in *. eapply X; eauto; lia.
  - (* string-utf8 *)
    destruct (ser_utf8_ok _ _ _ _ _ HC Hw Hl) as (L & X). split; [exact L|].
    intros js ls k st a v ws P Q Hol Hn Ht Hr _ Ha Ho Hb Hs HP HW. destruct v; cbn [rep has_type] in Hr, Ht; try contradiction. cbn [sip005] in *.
    rewrite zlen_cons, zlen_app in *. unfold u32_be in Hb, Hs, HP, HW. rewrite zlen_be in *. rewrite Z.add_assoc in *. change (1 + Z.of_nat 4) with 5 in *. rewrite <- ?Z.add_assoc in *. eapply X; [exact Hol|exact Hn|apply Ht|exact Hr|exact Ha|exact Ho|lia|lia|exact HP|exact HW].
Qed.
End Code.
End Lits.
