(** * The emitted deserialization code for byte sequences and strings (proof support) *)
From Coq Require Import ZArith String Ascii List Bool Lia Sorted.
Import ListNotations.
From Verif Require Import Wasm Std StdEnv WasmLogic WasmTac Spec Mem MemFacts Bytes SpecBytes SpecUtf8 Clar Rep RepFacts Emit CallProofs EmitFacts EmitProofs
  ReadProofs Equal EqualProofs Utf8Proofs Utf8Dec ConvProofs NameProofs NameSearch BeProofs SpecSer SpecSkip SkipProofs SerProofs PropUtf8 PropSer SpecDeser Deser DeserProofs.
Open Scope string_scope.
Open Scope list_scope.
Open Scope Z_scope.

Section Code.
Variable tab : list string -> Z.
Context {HS : Type} (E : env HS) (HE : has_std E).
Notation wp := (wp E).
Notation deser_right := (deser_right tab E).

(** a 32-bit length in memory *)
Lemma len_at m a : 0 <= a -> a + 4 <= msize m <= m32 -> let n := be_value (bytes_at m a 4) in 0 <= n < m32 /\ holds m a (u32_be n).
Proof.
  intros Ha Hm n. pose proof (be_value_bound _ (bytes_at_byte m a 4)) as Hu. rewrite length_bytes_at in Hu. change (256 ^ Z.of_nat 4) with m32 in Hu. fold n in Hu.
  split; [exact Hu|]. unfold u32_be. assert (HB : be_bytes 4 n = bytes_at m a 4).
  { unfold n. rewrite <- (length_bytes_at m a 4) at 1. apply be_bytes_value. apply bytes_at_byte. }
  rewrite HB. apply holds_intro; lia.
Qed.
Lemma len_unique m a n k : holds m a (u32_be n) -> holds m a (u32_be k) -> 0 <= n < m32 -> 0 <= k < m32 -> n = k.
Proof.
  intros H1 H2 H3 H4. apply holds_eq in H1, H2. unfold u32_be in *. rewrite len_be_bytes in H1, H2. rewrite H1 in H2. eapply be_bytes_inj; [| |exact H2]; change (256 ^ Z.of_nat 4) with m32; lia.
Qed.

Lemma holds_push m a b bs : 0 <= a -> rd m a = b -> holds m (a + 1) bs -> holds m a (b :: bs).
Proof.
  intros Ha Hb (H1 & H2 & H3). split; [exact Ha|]. cbn [length]. split; [lia|]. rewrite bytes_at_S, Hb, H3. reflexivity.
Qed.

Section Bytes.
Variable asc : bool.
Let seq_ty n := if asc then TAscii n else TBuff n.
Let seq_val s := if asc then CAscii s else CBuff s.
Let tag := if asc then 13 else 2.
Let good := if asc then forallb asciib else fun _ => true.
Let check ol := if asc then ascii_check ol else fun _ => [].

Lemma check_ok ol len a s ls k (st : store HS) js Q : nth_error ls ol = Some (VI32 a) -> nth_error ls len = Some (VI32 (zlen s)) -> 0 <= a -> a + 5 + zlen s < m32 -> holds (smem st) (a + 5) s ->
  (good s = true -> wp js (mkcfg ls k st) Q) -> (good s = false -> Q (OBr 1 (mkcfg ls [VI32 0; VI32 0; VI32 0] st))) ->
  wp (check ol len ++ js) (mkcfg ls k st) Q.
Proof.
  intros Go Gl Ha Hb Hh HT HF. unfold check, good in *. clear check good. pose proof (zlen_nonneg s). destruct asc; [|apply HT; reflexivity]. unfold ascii_check. cbn [app].
  eapply wp_lget; [exact Go|]. apply wp_const. apply wp_add32; [lia|]. eapply wp_lget; [exact Gl|]. wcall HE. change (VI32 (zlen s)) with (vlen s).
  apply is_valid_string_ascii_wp; [exact HE|exact Hh|]. unfold qcall. wcbn. apply wp_eqz32. destruct (forallb asciib s); cbn [b2z Z.eqb].
  - eapply wp_if; [reflexivity|]. cbn [Z.eqb b2z]. wst. apply wp_nil. wst. apply HT. reflexivity.
  - eapply wp_if; [reflexivity|]. cbn [Z.eqb b2z]. wst. unfold none3. cbn [app]. apply wp_const. apply wp_const. apply wp_const. apply wp_br. wst. apply HF. reflexivity.
Qed.

Lemma seq_readable n s : zlen s <= n -> Forall byte s -> good s = true -> readable (seq_ty n) (seq_val s) (tag :: u32_be (zlen s) ++ s).
Proof.
  unfold seq_ty, seq_val, tag, good. destruct asc; cbn [readable sip005]; intros H1 H2 H3; (split; [exact H1|]); (split; [|reflexivity]); [|exact H2].
  apply Forall_forall. rewrite forallb_forall in H3. intros x Hx. apply asciib_spec. apply H3. exact Hx.
Qed.
Lemma seq_of n v bs : readable (seq_ty n) v bs -> exists s, v = seq_val s /\ bs = tag :: u32_be (zlen s) ++ s /\ zlen s <= n /\ Forall byte s /\ good s = true.
Proof.
  unfold seq_ty, seq_val, tag, good. destruct asc; destruct v; cbn [readable sip005]; try contradiction; intros (H1 & H2 & H3); exists bs0; split; auto; split; auto; split; auto.
  split; [eapply Forall_impl; [|exact H2]; unfold clarity_ascii, byte; cbv beta; intros; lia|].
  apply forallb_forall. rewrite Forall_forall in H2. intros x Hx. apply asciib_spec. apply H2. exact Hx.
Qed.

Lemma deser_seq_ok n : deser_right (seq_ty n).
Proof.
  intros Hok l ol el rl c l' H Hw Ho He Hr D1 D2 D3.
  assert (H' : deser_bytes tag (check ol) ol el n l = (c, l')) by (unfold tag, check; unfold seq_ty in H; destruct asc; exact H). clear H. rename H' into H. unfold deser_bytes in H. rewrite add_one, !add_more in H.
  assert (Hc := f_equal fst H). assert (Hl' := f_equal snd H). cbn [fst snd] in Hc, Hl'. subst c l'. clear H. cbn [app length].
  split; [apply more_ext; auto|]. intros js ls k st a e r K o Q Go Ge Gr Hn (A1 & A2 & A3 & A4 & A5 & A6 & A7 & A8 & A9) _ _ HW S F.
  rewrite !llen_more in *. cbn [length] in *. apply live_lt in Ho, He, Hr.
  assert (Hb : base_type (seq_ty n)) by (unfold seq_ty; destruct asc; exact I).
  assert (Hnn : 0 <= n <= max_value_size) by (unfold seq_ty in Hok; destruct asc; cbn in Hok; lia). unfold max_value_size in Hnn.
  assert (Hty : clar2wasm_ty (seq_ty n) = [T32; T32]) by (unfold seq_ty; destruct asc; reflexivity).
  assert (FAIL : forall ls', o = None -> lkeep (hide [ol; rl] l) ls ls' -> nth_error ls' ol = Some (VI32 a) -> wp js (mkcfg ls' (VI32 0 :: VI32 0 :: VI32 0 :: k) st) Q).
  { intros ls' Hno HK HO. specialize (F ls' (smem st) [VI32 0; VI32 0]). rewrite with_mem_same in F. apply F. split; [exact Hno|]. split; [exact HK|]. split; [eauto|]. split; [apply only_refl|].
    rewrite Hty. repeat constructor; cbn; lia. }
  assert (NEED : o = None \/ exists s, holds (smem st) a (tag :: u32_be (zlen s) ++ s) /\ a + (5 + zlen s) <= e /\ zlen s <= n /\ good s = true).
  { destruct o as [[v bs]|]; [right|left; reflexivity]. destruct HW as (W1 & W2 & W3). apply seq_of in W1 as (s & -> & -> & W4 & W5 & W6). exists s.
    rewrite zlen_cons, zlen_app in W3. unfold u32_be in W3. rewrite zlen_be in W3. split; [exact W2|]. split; [lia|]. auto. }
  cbn [app]. apply wp_block. wst. eapply wp_lget; [exact Go|]. apply wp_const. apply wp_add32; [lia|]. eapply wp_lget; [exact Ge|]. apply wp_r32. cbn [irel]. apply wp_if_bool; intros Hc; cbn [firstn skipn].
  { unfold none3. cbn [app]. apply wp_const. apply wp_const. apply wp_const. apply wp_br. wst. apply FAIL; [|apply lkeep_refl|exact Go].
    destruct NEED as [Hno|(s & N1 & N2 & N3 & N4)]; [exact Hno|]. pose proof (zlen_nonneg s). lia. }
  apply wp_nil. wst. eapply wp_lget; [exact Go|]. apply wp_byte_at; [lia|lia|]. rewrite Z.add_0_r. apply wp_const. apply wp_r32. cbn [irel]. apply wp_if_bool; intros Hc2; cbn [firstn skipn].
  2:{ apply Z.eqb_neq in Hc2. unfold none3. apply wp_const. apply wp_const. apply wp_const. apply wp_nil. wst. apply wp_nil. wst. apply FAIL; [|apply lkeep_refl|exact Go].
    destruct NEED as [Hno|(s & N1 & N2 & N3 & N4)]; [exact Hno|]. apply holds_cons in N1 as (N1 & _). congruence. }
  apply Z.eqb_eq in Hc2. cbn [app]. eapply wp_lget; [exact Go|]. apply wp_const. apply wp_add32; [lia|].
  destruct (len_at (smem st) (a + 1) ltac:(lia) ltac:(lia)) as (L1 & L2). set (len := be_value (bytes_at (smem st) (a + 1) 4)) in *.
  wcall HE. apply load_i32_be_wp with (n := len); [exact HE|exact L1|exact L2|]. unfold qcall. wcbn.
  assert (NLEN : o = None \/ exists s, zlen s = len /\ holds (smem st) (a + 5) s /\ a + (5 + zlen s) <= e /\ zlen s <= n /\ good s = true).
  { destruct NEED as [Hno|(s & N1 & N2 & N3 & N4)]; [auto|right]. pose proof (zlen_nonneg s). exists s. apply holds_cons in N1 as (_ & _ & _ & _ & _ & N1). apply holds_app in N1 as (N1 & N5).
    unfold u32_be in N5. rewrite len_be_bytes in N5. replace (a + 1 + Z.of_nat 4) with (a + 5) in N5 by lia. split; [|auto]. eapply len_unique; eauto. lia. }
  apply wp_ltee. apply wp_const. apply wp_r32. cbn [irel]. apply wp_if_bool; intros Hc3; cbn [firstn skipn].
  { unfold none3. cbn [app]. apply wp_const. apply wp_const. apply wp_const. apply wp_br. wst. apply FAIL; [|apply keep_new; lia|lk].
    destruct NLEN as [Hno|(s & N1 & N2 & N3 & N4 & _)]; [exact Hno|]. lia. }
  apply wp_nil. wst. eapply wp_lget; [lk|]. eapply wp_lget; [lk|]. apply wp_add32; [lia|]. apply wp_const. apply wp_add32; [lia|]. apply wp_ltee. eapply wp_lget; [lk|]. apply wp_r32. cbn [irel]. apply wp_if_bool; intros Hc4; cbn [firstn skipn].
  { unfold none3. cbn [app]. apply wp_const. apply wp_const. apply wp_const. apply wp_br. wst. apply FAIL; [|apply keep_new2; [left; lia|]; apply keep_new; lia|lk].
    destruct NLEN as [Hno|(s & N1 & N2 & N3 & N4 & _)]; [exact Hno|]. lia. }
  apply wp_nil. wst. apply wp_const.
  set (s := bytes_at (smem st) (a + 5) (Z.to_nat len)). assert (Hs : zlen s = len) by (unfold s, zlen; rewrite length_bytes_at; lia).
  assert (Hsb : Forall byte s) by apply bytes_at_byte.
  assert (Hsh : holds (smem st) (a + 5) s) by (apply holds_at; lia).
  assert (HALL : holds (smem st) a (tag :: u32_be (zlen s) ++ s)).
  { apply holds_push; [exact A1|exact Hc2|]. rewrite Hs. apply holds_app. split; [exact L2|].
    unfold u32_be. rewrite len_be_bytes. replace (a + 1 + Z.of_nat 4) with (a + 5) by lia. exact Hsh. }
  eapply (check_ok _ _ a s); [lk|rewrite Hs; lk|lia|lia|exact Hsh| |]; intros Hg.
  2:{ wst. apply FAIL; [|apply keep_new2; [left; lia|]; apply keep_new; lia|lk]. destruct NLEN as [Hno|(s' & N1 & N2 & N3 & N4 & N5)]; [exact Hno|exfalso].
    assert (s' = s); [|congruence]. unfold s. rewrite <- (holds_eq _ _ _ N2). f_equal. unfold zlen in N1. lia. }
  eapply wp_lget; [lk|]. apply wp_const. apply wp_add32; [lia|]. eapply wp_lget; [lk|]. eapply wp_lget; [lk|]. apply wp_lset. apply wp_nil. wst. apply wp_nil. wst.
  match goal with |- WasmLogic.wp _ _ (mkcfg ?x _ _) _ => set (ls' := x) end.
  specialize (S ls' (smem st) (seq_val s) (tag :: u32_be (zlen s) ++ s) [VI32 (a + 5); VI32 len] r). rewrite with_mem_same in S. apply S. clear S. unfold succeeded.
  assert (HZ : zlen (tag :: u32_be (zlen s) ++ s) = 5 + len) by (rewrite zlen_cons, zlen_app; unfold u32_be; rewrite zlen_be; lia). rewrite HZ.
  assert (HR := seq_readable n s ltac:(lia) Hsb Hg).
  split; [apply keep_new2; [auto|]; apply keep_new2; [left; lia|]; apply keep_new; lia|]. split; [replace (a + (5 + len)) with (len + a + 5) by lia; unfold ls'; lk|]. split; [unfold ls'; lk|]. split; [lia|].
  split; [apply only_refl|]. split; [exact HR|]. split; [exact HALL|]. split; [lia|]. split; [eapply base_agrees; eauto|].
  assert (HRB : rep_bytes (smem st) (fun x => a <= x < a + (5 + len) \/ r <= x < r) s [VI32 (a + 5); VI32 len]).
  { exists (a + 5). unfold zlen in Hs. rewrite Hs. split; [reflexivity|]. split; [lia|]. split; [lia|]. split; [exact Hsh|]. intros x Hx. left. lia. }
  unfold seq_ty, seq_val. destruct asc; exact HRB.
Qed.
End Bytes.
(** *** utf8 strings *)
Lemma utf8_bound cs : zlen (utf8 cs) <= 4 * zlen cs.
Proof. unfold zlen. induction cs as [|c cs IH]; [cbn; lia|]. rewrite utf8_cons, app_length. pose proof (utf8_char_len c). cbn [length]. lia. Qed.
Lemma utf8_empty cs : utf8 cs = [] -> cs = [].
Proof. destruct cs as [|c cs]; [reflexivity|]. rewrite utf8_cons. intros H. apply app_eq_nil in H as (H & _). pose proof (utf8_char_len c) as HL. rewrite H in HL. cbn in HL. lia. Qed.
Lemma deser_utf8_ok n : deser_right (TUtf8 n).
Proof.
  intros Hok l ol el rl c l' H Hw Ho He Hr D1 D2 D3. cbn [deserialize_from_memory] in H. unfold deser_utf8 in H. rewrite add_one in H.
  assert (Hc := f_equal fst H). assert (Hl' := f_equal snd H). cbn [fst snd] in Hc, Hl'. subst c l'. clear H. cbn [app length].
  split; [apply more_ext; auto|]. intros js ls k st a e r K o Q Go Ge Gr Hn (A1 & A2 & A3 & A4 & A5 & A6 & A7 & A8 & A9) _ _ HW S _.
  rewrite !llen_more in *. cbn [length room] in *. apply live_lt in Ho, He, Hr. cbn [ty_ok] in Hok. unfold max_value_size in Hok.
  destruct o as [[v bs]|]; [|destruct HW as [[]|(? & [] & _)]]. assert (HW0 := HW). destruct HW as (W1 & W2 & W3). assert (W1' := W1). destruct v; cbn [readable] in W1; try contradiction. destruct W1 as (W1 & Wc & ->). rename l0 into cs || idtac.
  cbn [sip005] in *. rewrite zlen_cons, zlen_app in W3. unfold u32_be in W3. rewrite zlen_be in W3.
  pose proof (utf8_bound cs) as HUB. pose proof (zlen_nonneg (utf8 cs)) as HUN. set (u := utf8 cs) in *.
  assert (W2' := W2). apply holds_cons in W2' as (T1 & _ & _ & _ & _ & T2). apply holds_app in T2 as (T2 & T3). unfold u32_be in T3. rewrite len_be_bytes in T3. replace (a + 1 + Z.of_nat 4) with (a + 5) in T3 by lia.
  cbn [app]. eapply wp_lget; [exact Go|]. apply wp_const. apply wp_add32; [lia|]. eapply wp_lget; [exact Ge|]. apply wp_r32. cbn [irel]. rewrite (proj2 (Z.leb_le (a + 5) e)) by lia.
  eapply wp_lget; [exact Go|]. apply wp_byte_at; [lia|lia|]. rewrite Z.add_0_r, T1. apply wp_const. apply wp_r32. cbn [irel]. eapply wp_b32; [reflexivity|]. cbn [b2z Z.eqb Pos.eqb Z.land Pos.land].
  eapply wp_if; [reflexivity|]. cbn [Z.eqb]. wst. eapply wp_lget; [exact Go|]. apply wp_const. apply wp_add32; [lia|]. wcall HE. apply load_i32_be_wp with (n := zlen u); [exact HE|lia|exact T2|]. unfold qcall. wcbn.
  apply wp_ltee. eapply wp_lget; [lk|]. apply wp_const. apply wp_add32; [lia|]. apply wp_ltee. apply wp_add32; [lia|]. eapply wp_lget; [lk|]. apply wp_r32. cbn [irel]. rewrite (proj2 (Z.leb_le (zlen u + (a + 5)) e)) by lia.
  eapply wp_if; [reflexivity|]. cbn [Z.eqb b2z]. wst. eapply wp_lget; [lk|]. eapply wp_lget; [lk|]. eapply wp_lget; [lk|]. apply wp_const. wcall HE.
  change (VI32 (zlen u)) with (vlen u). eapply utf8_to_string_utf8_wp; [exact HE|exact T3|lia|lia|lia|lia|unfold zlen in *; lia|left; exists cs; split; [exact Wc|reflexivity]| |].
  2:{ intros m' _ HX _. exfalso. apply (HX cs). split; [split; [exact Wc|reflexivity]|]. unfold zlen in W1. lia. }
  intros cs' m' Hcs M1 M2. assert (cs' = cs) as ->.
  { destruct Hcs as [(Hcs & _)|(Hcs & ->)]; [|symmetry; apply utf8_empty; exact Hcs]. eapply C21_utf8_unique; [exact Hcs|]. split; [exact Wc|reflexivity]. }
  unfold qcall. wcbn. eapply wp_lget; [lk|]. eapply wp_lget; [lk|]. apply wp_add32; [unfold zlen in *; lia|]. apply wp_lset.
  match goal with |- WasmLogic.wp E (bump rl (n * 4)) (mkcfg ?x ?y ?z) ?q => change (wp (bump rl (n * 4) ++ []) (mkcfg x y z) q) end || idtac.
  rewrite <- (app_nil_r (bump rl (n * 4))). eapply wp_bump; [lk|lia|]. apply wp_nil. wst. apply wp_nil. wst.
  match goal with |- WasmLogic.wp _ _ (mkcfg ?x _ _) _ => set (ls' := x) end.
  specialize (S ls' m' (CUtf8 cs) (14 :: u32_be (zlen u) ++ u) [VI32 r; VI32 (4 * Z.of_nat (length cs))] (r + n * 4)). apply S. clear S. unfold succeeded.
  assert (HZ : zlen (14 :: u32_be (zlen u) ++ u) = 5 + zlen u) by (rewrite zlen_cons, zlen_app; unfold u32_be; rewrite zlen_be; lia). rewrite HZ.
  unfold zlen in W1. assert (HL4 : Z.of_nat (length (utf8_mem cs)) = 4 * Z.of_nat (length cs)) by (rewrite len4; reflexivity).
  split; [apply keep_new2; [auto|]; apply keep_new2; [auto|]; apply keep_new2; [auto|]; apply keep_new; lia|]. split; [replace (a + (5 + zlen u)) with (a + 5 + zlen u) by lia; unfold ls'; lk|]. split; [unfold ls'; lk|]. split; [lia|].
  split; [eapply only_weaken; [exact M1|lia|lia]|]. split; [exact W1'|]. split; [exact W2|]. split; [lia|]. split; [split; reflexivity|].
  cbn [rep]. rewrite mem_utf8. exists r. rewrite HL4. split; [reflexivity|]. split; [lia|]. split; [lia|]. split; [|intros x Hx; right; lia].
  split; [lia|]. rewrite (only_size _ _ _ _ M1), HL4. change (2 ^ 32) with m32. split; [lia|exact M2].
Qed.

(** *** Reading a value and saving it *)
Lemma deser_save t ci l l1 ol el rl is cs l2 : deserializes tab E t ci l l1 ol el rl -> save_to_locals t l1 = (is, cs, l2) -> live l ol -> live l rl ->
  lext l l2 /\ Forall (live l2) is /\ length is = length (clar2wasm_ty t) /\
  forall js fl ls k (st : store HS) a e r K o Q,
    nth_error ls ol = Some (VI32 a) -> nth_error ls el = Some (VI32 e) -> nth_error ls rl = Some (VI32 r) -> (llen l2 <= length ls)%nat ->
    area (smem st) a e r (room t) -> tables tab (smem st) K t -> off_limits K r (room t) -> want t (smem st) a e o ->
    (forall ls' m' v bs ws r', succeeded l ol rl ls ls' (smem st) m' a e r (room t) o t v bs ws r' -> lvals ls' is ws ->
       wp js (mkcfg ls' k (with_mem st m')) Q) ->
    (forall ls' m' ws, failed l ol rl ls ls' (smem st) m' r (room t) o t ws ->
       wp fl (mkcfg ls' [] (with_mem st m')) (qblock E 0 k js Q)) ->
    wp (ci ++ cs ++ Eqz32 :: If 0 0 fl [] :: js) (mkcfg ls k st) Q.
Proof.
  intros (X1 & X2) ES Lo Lr. destruct (save_ok E _ _ _ _ _ ES (lext_wf _ _ X1)) as (Y1 & Y2 & Y3 & Y4). pose proof (lext_len _ _ Y1) as Hle.
  split; [eapply lext_trans; eauto|]. split; [exact Y2|]. split; [exact Y3|]. intros js fl ls k st a e r K o Q Go Ge Gr Hn HA HT HO HW S F.
  eapply X2; [exact Go|exact Ge|exact Gr|lia|exact HA|exact HT|exact HO|exact HW| |].
  - intros ls' m' v bs ws r' (S1 & S2 & S3 & S4 & S5 & S6 & S7 & S8 & S9 & S10). pose proof (lkeep_len _ _ _ S1) as HL. eapply Y4; [exact (rep_len _ _ _ _ _ S10)|lia|]. intros ls2 K2 V2.
    apply wp_eqz32. cbn [Z.eqb b2z]. eapply wp_if; [reflexivity|]. cbn [Z.eqb]. wst. apply wp_nil. wst. eapply S; [|exact V2].
    split; [eapply lkeep_trans0; [exact S1|]; eapply lkeep_hide; [exact X1|exact K2]|].
    split; [rewrite (lkeep_get _ _ _ ol K2); [exact S2|eapply lext_live; eauto]|]. split; [rewrite (lkeep_get _ _ _ rl K2); [exact S3|eapply lext_live; eauto]|].
    split; [exact S4|]. split; [exact S5|]. split; [exact S6|]. split; [exact S7|]. split; [exact S8|]. split; [exact S9|exact S10].
  - intros ls' m' ws (S1 & S2 & (x & S3) & S4 & S5). pose proof (lkeep_len _ _ _ S2) as HL. eapply Y4; [symmetry; exact (F2_len _ _ _ S5)|lia|]. intros ls2 K2 V2.
    apply wp_eqz32. cbn [Z.eqb b2z]. eapply wp_if; [reflexivity|]. cbn [Z.eqb]. wst. eapply F. split; [exact S1|].
    split; [eapply lkeep_trans0; [exact S2|]; eapply lkeep_hide; [exact X1|exact K2]|].
    split; [exists x; rewrite (lkeep_get _ _ _ ol K2); [exact S3|eapply lext_live; eauto]|]. split; [exact S4|exact S5].
Qed.
End Code.
