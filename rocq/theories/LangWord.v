(** * Correctness of emitted expression code: words that evaluate their operands first (proof support) *)
From Coq Require Import ZArith String List Bool Lia.
Import ListNotations.
From Verif Require Import Wasm Std StdEnv WasmLogic WasmTac Mem MemFacts Bytes Spec SpecBytes SpecUtf8 ArithProofs BitProofs ArithFacts ArithSpecs BuffProofs PropBytes Clar Rep RepFacts Emit EmitFacts EmitProofs Equal EqualProofs
  CallProofs ArgProofs Ast SpecLang Lang Typing LangFacts LangBase LangCtl LangEarly LangMem LangSeq LangList LangConcat LangTuple LangArith.
Open Scope string_scope.
Open Scope list_scope.
Open Scope Z_scope.

(** ** Ranges of bit operations *)
Lemma i_shift z : is_i128 z <-> Z.shiftr z 127 = 0 \/ Z.shiftr z 127 = -1.
Proof.
  rewrite Z.shiftr_div_pow2 by lia. unfold is_i128. assert (0 < 2 ^ 127) by reflexivity. pose proof (Z.div_mod z (2 ^ 127)) as D. pose proof (Z.mod_pos_bound z (2 ^ 127)) as M. split; [|nia].
  intros Hz. destruct (Z.leb_spec 0 z); [left; apply Z.div_small; lia|right]. symmetry. apply Z.div_unique with (r := z + 2 ^ 127); lia.
Qed.
Lemma u_shift z : is_u128 z <-> Z.shiftr z 128 = 0.
Proof.
  rewrite Z.shiftr_div_pow2 by lia. unfold is_u128. assert (0 < 2 ^ 128) by reflexivity. pose proof (Z.div_mod z (2 ^ 128)) as D. pose proof (Z.mod_pos_bound z (2 ^ 128)) as M. split; [intros; apply Z.div_small; lia|nia].
Qed.
Definition bitop (f : Z -> Z -> Z) : Prop := f = Z.land \/ f = Z.lor \/ f = Z.lxor.
Lemma bit_range f t a b : bitop f -> is_num t = true -> in_range t a -> in_range t b -> in_range t (f a b).
Proof.
  intros Hf Ht. destruct t; try discriminate; cbn [in_range]; rewrite ?i_shift, ?u_shift; intros Ha Hb; destruct Hf as [->|[->| ->]];
    rewrite ?Z.shiftr_land, ?Z.shiftr_lor, ?Z.shiftr_lxor.
  1-3: destruct Ha as [-> | ->], Hb as [-> | ->]; cbn; auto.
  all: rewrite Ha, Hb; reflexivity.
Qed.
Lemma bit_assoc f : bitop f -> forall a b c, f a (f b c) = f (f a b) c.
Proof. intros [->|[->| ->]] a b c; [apply Z.land_assoc|apply Z.lor_assoc|symmetry; apply Z.lxor_assoc]. Qed.

Lemma fold_move f : (forall a b c, f a (f b c) = f (f a b) c) -> forall zs (x y : Z), fold_left f zs (f x y) = f x (fold_left f zs y).
Proof. intros Hf. induction zs as [|z zs IH]; intros x y; cbn [fold_left]; auto. rewrite <- Hf. apply IH. Qed.
Lemma fold_ends f : (forall a b c, f a (f b c) = f (f a b) c) -> forall zs (a y : Z) vs, a :: vs = zs ++ [y] -> fold_left f vs a = fold_right f y zs.
Proof.
  intros Hf. induction zs as [|z zs IH]; intros a y vs H; cbn [app] in H.
  - injection H as -> ->. reflexivity.
  - injection H as -> ->. cbn [fold_right]. destruct zs as [|z1 zs]; [reflexivity|]. rewrite <- (IH z1 y (zs ++ [y]) eq_refl). cbn [app fold_left]. apply fold_move. exact Hf.
Qed.

Lemma nws_mod x y : x mod 2 ^ 128 = y mod 2 ^ 128 -> nws x = nws y.
Proof. intros H. rewrite <- !i128_nws. unfold i128. rewrite H. reflexivity. Qed.
Lemma wrap128_mod z : wrap128 z mod 2 ^ 128 = z mod 2 ^ 128.
Proof.
  unfold wrap128. destruct (z mod 2 ^ 128 <? 2 ^ 127); [apply Z.mod_mod; lia|].
  rewrite Zminus_mod, Z.mod_same, Z.sub_0_r, !Z.mod_mod by lia. reflexivity.
Qed.
Lemma wrap128_range z : is_i128 (wrap128 z).
Proof.
  unfold wrap128, is_i128. pose proof (Z.mod_pos_bound z (2 ^ 128) ltac:(lia)). change (2 ^ 128) with (2 * 2 ^ 127) in *. assert (0 < 2 ^ 127) by reflexivity.
  destruct (Z.ltb_spec (z mod (2 * 2 ^ 127)) (2 ^ 127)); lia.
Qed.
Lemma shr_range_i a n : 0 <= n -> is_i128 a -> is_i128 (a / 2 ^ n).
Proof.
  intros Hn. unfold is_i128. assert (0 < 2 ^ n) by (apply Z.pow_pos_nonneg; lia). intros H0. split.
  - apply Z.div_le_lower_bound; nia.
  - apply Z.div_lt_upper_bound; nia.
Qed.
Lemma shr_range_u a n : 0 <= n -> is_u128 a -> is_u128 (a / 2 ^ n).
Proof.
  intros Hn. unfold is_u128. assert (0 < 2 ^ n) by (apply Z.pow_pos_nonneg; lia). intros H0. split.
  - apply Z.div_pos; lia.
  - apply Z.div_lt_upper_bound; nia.
Qed.

Section Word.
Context {HS : Type} {CH : chain HS} (E : env HS) (HE : has_std E) (rt : ty) (L : list (ty * value * Z)) (X : Z) (HX0 : 0 <= X).
Notation wp := (wp E).
Notation impl := (impl E rt L X).
Notation ctx := (ctx L X).
Notation sub_ok := (sub_ok E rt L X).
Notation impl_next := (impl_next E rt L X).
Notation impl_next1 := (impl_next1 E rt L X).
Notation impl_last := (impl_last E rt L X).
Notation impl_block := (impl_block E rt L X).
Notation impl_fr := (impl_fr E rt L X).
Notation impl_ext := (impl_ext E rt L X).
Ltac fr_of H := let P := fresh "P" in pose proof (impl_fr _ _ _ _ _ H) as P.
Ltac ext_of H E X := let W := fresh in
  match type of E with ?c ?d ?B ?l = _ =>
    assert (W : lwf l) by (assumption || (eapply lext_wf; eassumption));
    pose proof (impl_ext _ _ _ _ _ _ _ _ _ _ H E W) as X; clear W end.
Ltac lenl := repeat match goal with H : lext _ _ |- _ => apply lext_len in H | H : moved _ _ _ _ _ _ _ _ |- _ => apply m_ls, lkeep_len in H end; lia.
Notation does := (does E).
Lemma std_arity f n : (exists g, assoc f std_funs = Some g /\ length (fparams g) = n) -> fun_arity E f = Some n.
Proof. intros (g & H1 & H2). unfold fun_arity. rewrite (std_fun _ HE _ _ H1), <- H2. reflexivity. Qed.

(** a call of a library function on the operands [ws] *)
Definition call_ok (f : string) (ws : list val) (st : store HS) (t : ty) (r : value + Z) : Prop :=
  fun_arity E f = Some (length ws) /\ does f ws st t r.

Lemma bit_does f g a b st t : (f, g) = (Z.land, "stdlib.bit-and") \/ (f, g) = (Z.lor, "stdlib.bit-or") \/ (f, g) = (Z.lxor, "stdlib.bit-xor") ->
  is_num t = true -> in_range t a -> in_range t b -> call_ok g (nws a ++ nws b) st t (inl (num t (f a b))).
Proof.
  intros Hf Ht Ha Hb. split.
  - apply std_arity. destruct Hf as [Hf|[Hf|Hf]]; injection Hf as -> ->; eexists; split; reflexivity.
  - apply does_num; auto.
    + apply bit_range; auto. destruct Hf as [Hf|[Hf|Hf]]; injection Hf as -> ->; unfold bitop; auto.
    + rewrite <- !i128_nws. destruct Hf as [Hf|[Hf|Hf]]; injection Hf as -> ->; [apply bit_and_int_calls|apply bit_or_int_calls|apply bit_xor_int_calls]; auto.
Qed.

Lemma bits_fold f t : is_num t = true -> forall zs a v, bits_all f (num t a) (map (num t) zs) = Some v -> v = num t (fold_left f zs a).
Proof.
  intros Ht. induction zs as [|z zs IH]; intros a v H; cbn [map bits_all fold_left] in *.
  - injection H as <-. reflexivity.
  - replace (bits f (num t a) (num t z)) with (Some (num t (f a z))) in H by (destruct t; try discriminate; reflexivity). apply IH. exact H.
Qed.

Lemma fold_wp f g t (st : store HS) : (f, g) = (Z.land, "stdlib.bit-and") \/ (f, g) = (Z.lor, "stdlib.bit-or") \/ (f, g) = (Z.lxor, "stdlib.bit-xor") -> is_num t = true ->
  (exists w, gget (sglob st) "runtime-error-code" = Some w) -> forall js ls k Q zs y, Forall (in_range t) zs -> in_range t y ->
  (in_range t (fold_right f y zs) -> wp js (mkcfg ls (rev (nws (fold_right f y zs)) ++ k) st) Q) ->
  wp (repeat (Call g) (length zs) ++ js) (mkcfg ls (rev (flat_map nws zs ++ nws y) ++ k) st) Q.
Proof.
  intros Hf Ht He js ls k Q. induction zs as [|x zs IH] using rev_ind; intros y Hz Hy HW.
  - cbn [length repeat app flat_map]. cbn [fold_right] in HW. apply HW. exact Hy.
  - apply Forall_app in Hz as (Hz & Hx). inversion Hx as [|? ? Hx' _]; subst. rewrite app_length. cbn [length]. rewrite Nat.add_1_r. cbn [repeat app].
    rewrite flat_map_app. cbn [flat_map]. rewrite app_nil_r, <- app_assoc, rev_app_distr, <- app_assoc.
    destruct (bit_does f g x y st t Hf Ht Hx' Hy) as (HA & HD). eapply does_wp; [exact HD|exact HA|exact He|]. intros ws Hws Hty.
    destruct (rep_num_inv _ _ _ _ _ Ht (Hws (smem st) (fun _ => True))) as (z & Hz' & ->). assert (z = f x y) as -> by (destruct t; try discriminate; injection Hz'; auto).
    rewrite app_assoc, <- rev_app_distr. apply IH; auto.
    + apply type_num_inv; auto.
    + rewrite fold_right_app in HW. exact HW.
Qed.

Lemma rep_nums m P ts t : is_num t = true -> Forall (fun a => a = t) ts -> forall vs ws, rep_list m P ts vs ws -> Forall2 has_type ts vs ->
  exists zs, vs = map (num t) zs /\ ws = flat_map nws zs /\ Forall (in_range t) zs /\ length zs = length ts.
Proof.
  intros Ht. induction 1 as [|a ts Ha H IH]; intros vs ws Hr Hv; inversion Hr; subst; inversion Hv; subst.
  - exists []. repeat split; constructor.
  - destruct (IH _ _ ltac:(eassumption) ltac:(eassumption)) as (zs & -> & -> & Hz & Hl).
    match goal with H : rep _ _ t _ _ |- _ => destruct (rep_num_inv _ _ _ _ _ Ht H) as (z & -> & ->) end.
    exists (z :: zs). split; [reflexivity|]. split; [reflexivity|]. split; [constructor; auto; apply type_num_inv; auto|cbn; congruence].
Qed.

Lemma rep_buff m P t v ws : rep m P t v ws -> has_type t v -> match t with TBuff _ | TAscii _ | TUtf8 _ => True | _ => False end ->
  exists o bs, ws = [VI32 o; vlen bs] /\ holds m o bs /\
    bs = match v with CBuff l | CAscii l => l | CUtf8 l => flat_map (be_bytes 4) l | _ => [] end /\ match v with CUtf8 l => Forall scalar l | _ => True end.
Proof.
  intros H HT Ht. destruct t; try contradiction; destruct v; cbn [rep has_type] in *; try contradiction; destruct H as (o & H1 & H2 & H3 & H4 & H5);
    eexists o, _; (split; [exact H1|split; [exact H4|split; [reflexivity|]]]); try exact I. apply HT.
Qed.
Lemma ltv_buff a b bs cs r : ltv a b = Some r -> match a with CBuff l | CAscii l => bs = l | CUtf8 l => bs = flat_map (be_bytes 4) l /\ Forall scalar l | _ => False end ->
  match b with CBuff l | CAscii l => cs = l | CUtf8 l => cs = flat_map (be_bytes 4) l /\ Forall scalar l | _ => False end -> (r = true <-> lex_lt bs cs).
Proof.
  destruct a; try contradiction; destruct b; try discriminate; cbn [ltv]; intros H Ha Hb; injection H as <-.
  - subst. apply lexb_lt.
  - subst. apply lexb_lt.
  - destruct Ha as (-> & Ha), Hb as (-> & Hb). rewrite <- lexb_flat by auto. apply lexb_lt.
Qed.

(** comparison words, on two operands of the same type *)
Definition cmp_sem (w : word) (a b : value) : option bool :=
  match w with WLt => ltv a b | WGt => ltv b a | WLe => option_map negb (ltv b a) | _ => option_map negb (ltv a b) end.
Definition cmp_name (w : word) : string := match w with WLt => "lt" | WGt => "gt" | WLe => "le" | _ => "ge" end.
Lemma cmp_does w ta tb a b ws (st : store HS) P r : match w with WLt | WLe | WGt | WGe => True | _ => False end ->
  match ta, tb with TInt, TInt | TUInt, TUInt | TBuff _, TBuff _ | TAscii _, TAscii _ | TUtf8 _, TUtf8 _ => true | _, _ => false end = true ->
  rep_list (smem st) P [ta; tb] [a; b] ws -> has_type ta a -> has_type tb b -> cmp_sem w a b = Some r ->
  call_ok ("stdlib." ++ cmp_name w ++ "-" ++ cmp_sfx ta)%string ws st TBool (inl (CBool r)).
Proof.
  intros Hw Hty Hr Ha Hb Hs. inversion Hr as [|? ? ? ? w1 w2 R1 R2]; subst. inversion R2 as [|? ? ? ? w3 w4 R3 R4]; subst. inversion R4; subst. rewrite app_nil_r.
  assert (HN : is_num ta = true -> ta = tb /\ exists x y, a = num ta x /\ b = num ta y /\ w1 = nws x /\ w3 = nws y /\ in_range ta x /\ in_range ta y).
  { intros Hn. destruct (rep_num_inv _ _ _ _ _ Hn R1) as (x & -> & ->). assert (ta = tb) as <- by (destruct ta; try discriminate; destruct tb; try discriminate; reflexivity).
    destruct (rep_num_inv _ _ _ _ _ Hn R3) as (y & -> & ->). split; auto. exists x, y. repeat (split; [auto|]); apply type_num_inv; auto. }
  assert (HB : is_num ta = false -> cmp_sfx ta = "buff" /\ exists o1 b1 o2 b2, w1 = [VI32 o1; vlen b1] /\ w3 = [VI32 o2; vlen b2] /\ holds (smem st) o1 b1 /\ holds (smem st) o2 b2 /\
     (forall r, ltv a b = Some r -> (r = true <-> lex_lt b1 b2)) /\ (forall r, ltv b a = Some r -> (r = true <-> lex_lt b2 b1))).
  { intros Hn. destruct (rep_buff _ _ _ _ _ R1 Ha) as (o1 & b1 & -> & H1 & E1 & S1); [destruct ta; try discriminate; exact I|].
    destruct (rep_buff _ _ _ _ _ R3 Hb) as (o2 & b2 & -> & H2 & E2 & S2); [destruct ta; try discriminate; destruct tb; try discriminate; exact I|].
    split; [destruct ta; try discriminate; reflexivity|]. exists o1, b1, o2, b2. split; auto. split; auto. split; auto. split; auto.
    split; intros r0 H0; eapply ltv_buff; [exact H0| | |exact H0| |]; destruct ta; try discriminate; destruct tb; try discriminate; destruct a; try contradiction; destruct b; try contradiction; auto. }
  assert (HO : exists rel, In (cmp_name w, rel) cmps /\ (forall t x y, is_num t = true -> a = num t x -> b = num t y -> r = rel x y)).
  { destruct w; try contradiction; cbn [cmp_sem cmp_name] in *.
    - exists Z.ltb. split; [left; reflexivity|]. intros t x y Ht -> ->. destruct t; try discriminate; cbn in Hs; congruence.
    - exists Z.leb. split; [right; right; left; reflexivity|]. intros t x y Ht -> ->. destruct t; try discriminate; cbn in Hs; rewrite Z.leb_antisym; congruence.
    - exists Z.gtb. split; [right; left; reflexivity|]. intros t x y Ht -> ->. destruct t; try discriminate; cbn in Hs; rewrite Z.gtb_ltb; congruence.
    - exists Z.geb. split; [right; right; right; left; reflexivity|]. intros t x y Ht -> ->. destruct t; try discriminate; cbn in Hs; rewrite Z.geb_leb, Z.leb_antisym; congruence. }
  destruct (is_num ta) eqn:Hn.
  - destruct (HN eq_refl) as (<- & x & y & -> & -> & -> & -> & Hx & Hy). destruct HO as (rel & Hin & Hrel). split.
    + apply std_arity. destruct w; try contradiction; destruct ta; try discriminate; eexists; split; reflexivity.
    + apply does_bool. rewrite (Hrel ta x y) by auto. destruct ta; try discriminate; cbn [cmp_sfx] in *.
      * rewrite <- !i128_nws. apply (p_cmp_int E HE (cmp_name w) rel x y st Hx Hy Hin).
      * rewrite <- !u128_nws by auto. apply (p_cmp_uint E HE (cmp_name w) rel x y st Hx Hy Hin).
  - destruct (HB eq_refl) as (-> & o1 & b1 & o2 & b2 & -> & -> & H1 & H2 & L1 & L2). clear HN HB HO. split.
    + apply std_arity. destruct w; try contradiction; eexists; split; reflexivity.
    + apply does_bool. destruct w; try contradiction; cbn [cmp_sem cmp_name] in *.
      * destruct (C08_lt_buff E HE _ _ _ _ st H1 H2) as (q & C1 & C2). replace r with q; [exact C1|]. apply L1 in Hs. destruct q, r; try reflexivity; exfalso; intuition congruence.
      * destruct (C08_le_buff E HE _ _ _ _ st H1 H2) as (q & C1 & C2). destruct (ltv b a) as [r0|] eqn:E0; [|discriminate]. injection Hs as <-. specialize (L2 _ eq_refl).
        replace (negb r0) with q; [exact C1|]. destruct q, r0; try reflexivity; exfalso; intuition congruence.
      * destruct (C08_gt_buff E HE _ _ _ _ st H1 H2) as (q & C1 & C2). replace r with q; [exact C1|]. apply L2 in Hs. destruct q, r; try reflexivity; exfalso; intuition congruence.
      * destruct (C08_ge_buff E HE _ _ _ _ st H1 H2) as (q & C1 & C2). destruct (ltv a b) as [r0|] eqn:E0; [|discriminate]. injection Hs as <-. specialize (L1 _ eq_refl).
        replace (negb r0) with q; [exact C1|]. destruct q, r0; try reflexivity; exfalso; intuition congruence.
Qed.

Lemma log2_range a : 0 < a < 2 ^ 128 -> 0 <= Z.log2 a < 128.
Proof. intros H. split; [apply Z.log2_nonneg|]. apply Z.log2_lt_pow2; lia. Qed.
Lemma sqrt_range a : 0 <= a -> 0 <= Z.sqrt a <= a.
Proof. intros H. split; [apply Z.sqrt_nonneg|apply Z.sqrt_le_lin; auto]. Qed.

Lemma some_inj {A} (x y : A) : Some x = Some y -> y = x.
Proof. congruence. Qed.
(** words on integers with one library call *)
Definition word_fun (w : word) (t ta : ty) : string :=
  match word_code w t ta 2 with Call f :: _ => f | _ => "" end.
Ltac arity := apply std_arity; eexists; split; reflexivity.
Lemma num_does w t ta zs (st : store HS) r : match w with WMod | WPow | WLog2 | WSqrti | WBitNot => is_num ta = true /\ ta = t | _ => False end ->
  Forall (in_range ta) zs -> word_sem w (map (num ta) zs) = Some r -> word_wrong w (map (num ta) zs) = false ->
  call_ok (word_fun w t ta) (flat_map nws zs) st t r.
Proof.
  intros Hw Hz Hs Hwr. destruct w; try contradiction; destruct Hw as (Hn & ->).
  - destruct zs as [|a [|b [|]]]; try (destruct t; discriminate Hs). inversion Hz as [|? ? Ha Hz']; subst. inversion Hz' as [|? ? Hb _]; subst. destruct t; try discriminate; cbn [map num word_sem] in Hs; apply some_inj in Hs; subst r; cbn [flat_map app]; (split; [arity|]).
    + change (word_fun _ _ _) with "stdlib.mod-int". destruct (p_mod_int E HE a b st Ha Hb) as (H1 & H2). rewrite !i128_nws in *. destruct (Z.eqb_spec b 0) as [H0|H0]; [exact (H2 H0)|].
      apply (does_num E _ _ _ TInt); [reflexivity|apply rem_range; auto|exact (H1 H0)].
    + change (word_fun _ _ _) with "stdlib.mod-uint". destruct (p_mod_uint E HE a b st Ha Hb) as (H1 & H2). rewrite (u128_nws a), (u128_nws b) in * by auto. destruct (Z.eqb_spec b 0) as [H0|H0]; [exact (H2 H0)|].
      assert (HR : is_u128 (a mod b)) by (cbn [in_range] in *; unfold is_u128 in *; pose proof (Z.mod_pos_bound a b ltac:(lia)); lia).
      apply (does_num E _ _ _ TUInt); [reflexivity|exact HR|rewrite <- (u128_nws (a mod b)) by exact HR; exact (H1 H0)].
  - destruct zs as [|a [|b [|]]]; try (destruct t; discriminate Hs). inversion Hz as [|? ? Ha Hz']; subst. inversion Hz' as [|? ? Hb _]; subst. destruct t; try discriminate; cbn [map num word_sem] in Hs; apply some_inj in Hs; subst r; cbn [flat_map]; rewrite app_nil_r; (split; [arity|]).
    + change (word_fun _ _ _) with "stdlib.pow-int". cbn [in_range] in *. destruct (Z.ltb_spec b 0) as [H0|H0].
      * destruct (p_pow_int_neg E HE a b st Ha Hb H0) as (H1 & H2). rewrite !i128_nws in *. destruct (Z.eqb_spec a 0) as [->|N0]; [|destruct (Z.eqb_spec a 1) as [->|N1]]; cbn [orb].
        -- apply (does_num E _ _ _ TInt); [reflexivity|exact Ha|auto].
        -- apply (does_num E _ _ _ TInt); [reflexivity|exact Ha|auto].
        -- exact (H1 N0 N1).
      * apply (does_exact E "stdlib.pow-int" TInt); auto. apply p_pow_int; auto. cbn [map num word_wrong] in Hwr. intros (-> & H1). apply Z.ltb_lt in H1. rewrite H1 in Hwr. discriminate.
    + change (word_fun _ _ _) with "stdlib.pow-uint". apply (does_exact E "stdlib.pow-uint" TUInt); auto. apply p_pow_uint; auto.
  - destruct zs as [|a [|]]; try (destruct t; discriminate Hs). inversion Hz as [|? ? Ha Hz']; subst. destruct t; try discriminate; cbn [map num word_sem] in Hs; apply some_inj in Hs; subst r; cbn [flat_map app]; (split; [arity|]); cbn [in_range] in *.
    + change (word_fun _ _ _) with "stdlib.log2-int". change (VI64 (a mod 2 ^ 64) :: _) with (nws a). destruct (p_log2_int E HE a st Ha) as (H1 & H2). rewrite !i128_nws in *. destruct (Z.leb_spec a 0) as [H0|H0]; [exact (H2 H0)|].
      assert (HR : 0 <= Z.log2 a < 128) by (apply log2_range; unfold is_i128 in Ha; lia). specialize (H1 (Z.log2 a)). rewrite i128_nws in H1.
      apply (does_num E _ _ _ TInt); [reflexivity|unfold in_range, is_i128; lia|]. apply H1; [|lia]. apply Z.log2_spec. exact H0.
    + change (word_fun _ _ _) with "stdlib.log2-uint". change (VI64 (a mod 2 ^ 64) :: _) with (nws a). destruct (p_log2_uint E HE a st Ha) as (H1 & H2). rewrite (u128_nws a) in * by auto. destruct (Z.eqb_spec a 0) as [H0|H0]; [exact (H2 H0)|].
      assert (HR : 0 <= Z.log2 a < 128) by (apply log2_range; unfold is_u128 in Ha; lia). specialize (H1 (Z.log2 a)). rewrite u128_nws in H1 by (unfold is_u128; lia).
      apply (does_num E _ _ _ TUInt); [reflexivity|unfold in_range, is_u128; lia|]. apply H1; [|lia]. apply Z.log2_spec. unfold is_u128 in Ha. lia.
  - destruct zs as [|a [|]]; try (destruct t; discriminate Hs). inversion Hz as [|? ? Ha Hz']; subst. destruct t; try discriminate; cbn [map num word_sem] in Hs; apply some_inj in Hs; subst r; cbn [flat_map app]; (split; [arity|]); cbn [in_range] in *.
    + change (word_fun _ _ _) with "stdlib.sqrti-int". change (VI64 (a mod 2 ^ 64) :: _) with (nws a). pose proof (sqrti_int_calls E HE a st Ha) as H1. rewrite !i128_nws in *. destruct (Z.ltb_spec a 0) as [H0|H0]; [exact H1|].
      pose proof (sqrt_range a H0). apply (does_num E _ _ _ TInt); [reflexivity|unfold in_range, is_i128 in *; lia|exact H1].
    + change (word_fun _ _ _) with "stdlib.sqrti-uint". change (VI64 (a mod 2 ^ 64) :: _) with (nws a). pose proof (sqrti_uint_calls E HE a st Ha) as H1.
      pose proof (sqrt_range a ltac:(unfold is_u128 in Ha; lia)). assert (HR : is_u128 (Z.sqrt a)) by (unfold is_u128 in *; lia). rewrite !u128_nws in H1 by auto. apply (does_num E _ _ _ TUInt); [reflexivity|exact HR|exact H1].
  - destruct zs as [|a [|]]; try (destruct t; discriminate Hs). inversion Hz as [|? ? Ha Hz']; subst. destruct t; try discriminate; cbn [map num word_sem] in Hs; apply some_inj in Hs; subst r; cbn [flat_map app]; (split; [arity|]); cbn [in_range] in *.
    + change (word_fun _ _ _) with "stdlib.bit-not". change (VI64 (a mod 2 ^ 64) :: _) with (nws a). pose proof (bit_not_int_calls E HE a st) as H1. rewrite !i128_nws in *. apply (does_num E _ _ _ TInt); [reflexivity|unfold in_range, is_i128 in *; lia|exact H1].
    + change (word_fun _ _ _) with "stdlib.bit-not". change (VI64 (a mod 2 ^ 64) :: _) with (nws a). pose proof (bit_not_uint_calls E HE a st Ha) as H1. assert (HR : is_u128 (2 ^ 128 - 1 - a)) by (unfold is_u128 in *; lia). rewrite !u128_nws in H1 by auto. apply (does_num E _ _ _ TUInt); [reflexivity|exact HR|exact H1].
Qed.

Lemma shift_does w ta a b (st : store HS) r : match w with WShl | WShr => True | _ => False end -> is_num ta = true -> in_range ta a -> is_u128 b ->
  word_sem w [num ta a; CUInt b] = Some r -> call_ok (word_fun w ta ta) (nws a ++ nws b) st ta r.
Proof.
  intros Hw Hn Ha Hb Hs. assert (H0 : 0 <= b mod 128 < 128) by (apply Z.mod_pos_bound; lia).
  destruct w; try contradiction; destruct ta; try discriminate; cbn [num word_sem] in Hs; apply some_inj in Hs; subst r; (split; [arity|]); cbn [in_range] in *.
  - change (word_fun _ _ _) with "stdlib.bit-shift-left". pose proof (shl_int_calls E HE a b st Hb) as H1. rewrite !i128_nws, u128_nws in H1 by auto.
    apply (does_num E _ _ _ TInt); [reflexivity|apply wrap128_range|]. rewrite (nws_mod _ _ (wrap128_mod _)). exact H1.
  - change (word_fun _ _ _) with "stdlib.bit-shift-left". pose proof (shl_uint_calls E HE a b st Ha Hb) as H1. rewrite !u128_nws in H1 by (auto; apply mod128_u).
    apply (does_num E _ _ _ TUInt); [reflexivity|apply mod128_u|exact H1].
  - change (word_fun _ _ _) with "stdlib.bit-shift-right-int". pose proof (shr_int_calls E HE a b st Ha Hb) as H1. rewrite !i128_nws, u128_nws in H1 by auto.
    apply (does_num E _ _ _ TInt); [reflexivity|apply shr_range_i; auto; lia|exact H1].
  - change (word_fun _ _ _) with "stdlib.bit-shift-right-uint". pose proof (shr_uint_calls E HE a b st Ha Hb) as H1. assert (HR : is_u128 (a / 2 ^ (b mod 128))) by (apply shr_range_u; auto; lia). rewrite !u128_nws in H1 by auto.
    apply (does_num E _ _ _ TUInt); [reflexivity|exact HR|exact H1].
Qed.

Lemma not_does (b : bool) (st : store HS) : call_ok "stdlib.not" [VI32 (if b then 1 else 0)] st TBool (inl (CBool (negb b))).
Proof.
  split; [arity|]. apply does_bool. apply wpf_calls. wenter HE. wpure. wnil. destruct b; reflexivity.
Qed.

Lemma call_wp f ws (st : store HS) t r js ls k Q : call_ok f ws st t r -> (exists w, gget (sglob st) "runtime-error-code" = Some w) ->
  match r with
  | inl v => forall ws, (forall m P, rep m P t v ws) -> has_type t v -> wp js (mkcfg ls (rev ws ++ k) st) Q
  | inr c => forall st', gget (sglob st') "runtime-error-code" = Some (VI32 c) -> Q (OTrap TUnreachable st')
  end -> wp ([Call f] ++ js) (mkcfg ls (rev ws ++ k) st) Q.
Proof. intros (H1 & H2) He HQ. cbn [app]. eapply does_wp; eauto. Qed.

Lemma rep_list_2 m P a b vs ws : rep_list m P [a; b] vs ws -> exists x y w1 w2, vs = [x; y] /\ ws = w1 ++ w2 /\ rep m P a x w1 /\ rep m P b y w2.
Proof.
  intros H. inversion H as [|? ? v1 ? w1 w2 R1 R2]; subst. inversion R2 as [|? ? v2 ? w3 w4 R3 R4]; subst. inversion R4; subst. rewrite app_nil_r. exists v1, v2, w1, w3. auto.
Qed.
Lemma rep_list_1 m P a vs ws : rep_list m P [a] vs ws -> exists x, vs = [x] /\ rep m P a x ws.
Proof. intros H. inversion H as [|? ? v1 ? w1 w2 R1 R2]; subst. inversion R2; subst. rewrite app_nil_r. eauto. Qed.

Lemma fold_word f g t vs ws (st : store HS) P js ls k Q ts r : (f, g) = (Z.land, "stdlib.bit-and") \/ (f, g) = (Z.lor, "stdlib.bit-or") \/ (f, g) = (Z.lxor, "stdlib.bit-xor") ->
  is_num t = true -> Forall (fun a => a = t) ts -> ts <> [] -> rep_list (smem st) P ts vs ws -> Forall2 has_type ts vs -> folded f vs = Some r ->
  (exists w, gget (sglob st) "runtime-error-code" = Some w) ->
  match r with
  | inl v => forall ws, (forall m P, rep m P t v ws) -> has_type t v -> wp js (mkcfg ls (rev ws ++ k) st) Q
  | inr c => forall st', gget (sglob st') "runtime-error-code" = Some (VI32 c) -> Q (OTrap TUnreachable st')
  end -> wp (repeat (Call g) (length ts - 1) ++ js) (mkcfg ls (rev ws ++ k) st) Q.
Proof.
  intros Hf Ht Hts Hne Hr Hv Hs He HQ. destruct (rep_nums _ _ _ _ Ht Hts _ _ Hr Hv) as (zs & -> & -> & Hz & Hl).
  destruct zs as [|a zs]; [destruct ts; [congruence|discriminate]|]. cbn [map folded] in Hs. destruct (bits_all f (num t a) (map (num t) zs)) as [v|] eqn:Eb; [|discriminate].
  injection Hs as <-. apply bits_fold in Eb; auto. subst v.
  destruct (exists_last (l := a :: zs) ltac:(discriminate)) as (zs' & y & Ez). rewrite Ez in Hz |- *. apply Forall_app in Hz as (Hz & Hy). inversion Hy as [|? ? Hy' _]; subst.
  rewrite flat_map_app. cbn [flat_map]. rewrite app_nil_r.
  replace (length ts - 1)%nat with (length zs') by (apply (f_equal (@length Z)) in Ez; rewrite app_length in Ez; cbn [length] in *; lia).
  assert (Hb : bitop f) by (destruct Hf as [Hf|[Hf|Hf]]; injection Hf as -> ->; unfold bitop; auto).
  eapply (fold_wp f g t st Hf Ht He js ls k Q zs' y Hz Hy'). intros HR. rewrite (fold_ends f (bit_assoc f Hb) _ _ _ _ Ez) in HQ.
  apply HQ; [intros; apply rep_nws; auto|apply type_num; auto].
Qed.

Lemma word_wp w t ts vs ws (st : store HS) P r js ls k Q : wt_word w t ts = true -> rep_list (smem st) P ts vs ws -> Forall2 has_type ts vs ->
  word_sem w vs = Some r -> word_wrong w vs = false -> (exists w, gget (sglob st) "runtime-error-code" = Some w) ->
  match r with
  | inl v => forall ws, (forall m P, rep m P t v ws) -> has_type t v -> wp js (mkcfg ls (rev ws ++ k) st) Q
  | inr c => forall st', gget (sglob st') "runtime-error-code" = Some (VI32 c) -> Q (OTrap TUnreachable st')
  end -> wp (word_code w t (hd TNo ts) (length ts) ++ js) (mkcfg ls (rev ws ++ k) st) Q.
Proof.
  intros Hwt Hr Hv Hs Hwr He HQ.
  (* words on one or two integers of the result type *)
  assert (HNUM : forall f, is_num t = true -> Forall (fun a => a = t) ts -> ts <> [] -> match w with WMod | WPow | WLog2 | WSqrti | WBitNot => True | _ => False end ->
    word_code w t (hd TNo ts) (length ts) = [Call f] -> f = word_fun w t t ->
    wp (word_code w t (hd TNo ts) (length ts) ++ js) (mkcfg ls (rev ws ++ k) st) Q).
  { intros f Ht Hts Hne Hw Hc Hf. rewrite Hc. destruct (rep_nums _ _ _ _ Ht Hts _ _ Hr Hv) as (zs & -> & -> & Hz & Hl).
    eapply (call_wp f _ st t r); [|exact He|exact HQ]. subst f. apply num_does; auto. destruct w; try contradiction; auto. }
  assert (HFOLD : forall f g, (f, g) = (Z.land, "stdlib.bit-and") \/ (f, g) = (Z.lor, "stdlib.bit-or") \/ (f, g) = (Z.lxor, "stdlib.bit-xor") ->
    is_num t = true -> Forall (fun a => a = t) ts -> ts <> [] -> folded f vs = Some r -> word_code w t (hd TNo ts) (length ts) = repeat (Call g) (length ts - 1) ->
    wp (word_code w t (hd TNo ts) (length ts) ++ js) (mkcfg ls (rev ws ++ k) st) Q).
  { intros f g Hf Ht Hts Hne Hfo Hc. rewrite Hc. eapply fold_word; eauto. }
  assert (HCMP : match w with WLt | WLe | WGt | WGe => True | _ => False end -> wp (word_code w t (hd TNo ts) (length ts) ++ js) (mkcfg ls (rev ws ++ k) st) Q).
  { intros Hw. assert (exists a b, ts = [a; b] /\ t = TBool /\ match a, b with TInt, TInt | TUInt, TUInt | TBuff _, TBuff _ | TAscii _, TAscii _ | TUtf8 _, TUtf8 _ => true | _, _ => false end = true) as (a & b & -> & -> & Hab).
    { destruct w; try contradiction; destruct ts as [|a [|b [|]]]; try discriminate; cbn [wt_word] in Hwt; apply andb_prop in Hwt as (H1 & H2); exists a, b; (split; [reflexivity|split; [destruct t; try discriminate; reflexivity|exact H2]]). }
    destruct (rep_list_2 _ _ _ _ _ _ Hr) as (x & y & w1 & w2 & -> & -> & R1 & R2). inversion Hv as [|? ? ? ? T1 Hv']; subst. inversion Hv' as [|? ? ? ? T2 _]; subst.
    assert (exists q, cmp_sem w x y = Some q /\ r = inl (CBool q)) as (q & Hq & ->).
    { destruct w; try contradiction; cbn [word_sem boolv] in Hs; unfold boolv, option_map, cmp_sem in *.
      - destruct (ltv x y); [|discriminate]. injection Hs as <-; eexists; split; reflexivity.
      - destruct (ltv y x); [|discriminate]. injection Hs as <-; eexists; split; reflexivity.
      - destruct (ltv y x); [|discriminate]. injection Hs as <-; eexists; split; reflexivity.
      - destruct (ltv x y); [|discriminate]. injection Hs as <-; eexists; split; reflexivity. }
    replace (word_code w TBool (hd TNo [a; b]) (length [a; b])) with [Call ("stdlib." ++ cmp_name w ++ "-" ++ cmp_sfx a)%string] by (destruct w; try contradiction; reflexivity).
    eapply (call_wp _ _ st TBool (inl (CBool q))); [|exact He|exact HQ]. eapply cmp_does; eauto. }
  destruct w; try (apply HCMP; exact I).
  - destruct ts as [|a [|b [|]]]; try discriminate. cbn [wt_word] in Hwt. apply andb_prop in Hwt as (H1 & H3). apply andb_prop in H1 as (H1 & H2). apply widens_num in H2, H3; auto. subst.
    eapply HNUM; [exact H1|repeat constructor|discriminate|exact I|reflexivity|reflexivity].
  - destruct ts as [|a [|b [|]]]; try discriminate. cbn [wt_word] in Hwt. apply andb_prop in Hwt as (H1 & H3). apply andb_prop in H1 as (H1 & H2). apply widens_num in H2, H3; auto. subst.
    eapply HNUM; [exact H1|repeat constructor|discriminate|exact I|reflexivity|reflexivity].
  - destruct ts as [|a [|]]; try discriminate. cbn [wt_word] in Hwt. apply andb_prop in Hwt as (H1 & H2). apply widens_num in H2; auto. subst.
    eapply HNUM; [exact H1|repeat constructor|discriminate|exact I|reflexivity|reflexivity].
  - destruct ts as [|a [|]]; try discriminate. cbn [wt_word] in Hwt. apply andb_prop in Hwt as (H1 & H2). apply widens_num in H2; auto. subst.
    eapply HNUM; [exact H1|repeat constructor|discriminate|exact I|reflexivity|reflexivity].
  - destruct ts as [|a [|]]; try discriminate. cbn [wt_word] in Hwt. apply andb_prop in Hwt as (H1 & H2). destruct t; try discriminate. destruct a; try discriminate.
    destruct (rep_list_1 _ _ _ _ _ Hr) as (x & -> & R). destruct x; try contradiction. cbn [rep] in R. subst ws. cbn [word_sem] in Hs. injection Hs as <-.
    cbn [word_code]. eapply call_wp; [apply not_does|exact He|exact HQ].
  - destruct ts as [|a ts]; try discriminate. cbn [wt_word] in Hwt. apply andb_prop in Hwt as (H1 & H3). apply andb_prop in H1 as (H1 & H2). apply widens_num in H2; auto. subst.
    eapply (HFOLD Z.land); [auto|exact H1| |discriminate|exact Hs|reflexivity]. constructor; auto. rewrite forallb_forall in H3. apply Forall_forall. intros b Hb. apply widens_num; auto.
  - destruct ts as [|a ts]; try discriminate. cbn [wt_word] in Hwt. apply andb_prop in Hwt as (H1 & H3). apply andb_prop in H1 as (H1 & H2). apply widens_num in H2; auto. subst.
    eapply (HFOLD Z.lor); [auto|exact H1| |discriminate|exact Hs|reflexivity]. constructor; auto. rewrite forallb_forall in H3. apply Forall_forall. intros b Hb. apply widens_num; auto.
  - destruct ts as [|a ts]; try discriminate. cbn [wt_word] in Hwt. apply andb_prop in Hwt as (H1 & H3). apply andb_prop in H1 as (H1 & H2). apply widens_num in H2; auto. subst.
    eapply (HFOLD Z.lxor); [auto|exact H1| |discriminate|exact Hs|reflexivity]. constructor; auto. rewrite forallb_forall in H3. apply Forall_forall. intros b Hb. apply widens_num; auto.
  - destruct ts as [|a [|b [|]]]; try discriminate. cbn [wt_word] in Hwt. apply andb_prop in Hwt as (H1 & H3). apply andb_prop in H1 as (H1 & H2). apply widens_num in H2, H3; auto. subst.
    eapply (HFOLD Z.lxor); [auto|exact H1|repeat constructor|discriminate| |reflexivity].
    destruct (rep_list_2 _ _ _ _ _ _ Hr) as (x & y & w1 & w2 & -> & -> & R1 & R2). exact Hs.
  - destruct ts as [|a [|]]; try discriminate. cbn [wt_word] in Hwt. apply andb_prop in Hwt as (H1 & H2). apply widens_num in H2; auto. subst.
    eapply HNUM; [exact H1|repeat constructor|discriminate|exact I|reflexivity|reflexivity].
  - destruct ts as [|a [|b [|]]]; try discriminate. cbn [wt_word] in Hwt. apply andb_prop in Hwt as (H1 & H3). apply andb_prop in H1 as (H1 & H2). apply widens_num in H2; auto. destruct b; try discriminate. subst.
    destruct (rep_list_2 _ _ _ _ _ _ Hr) as (x & y & w1 & w2 & -> & -> & R1 & R2). inversion Hv as [|? ? ? ? T1 Hv']; subst. inversion Hv' as [|? ? ? ? T2 _]; subst.
    destruct (rep_num_inv _ _ _ _ _ H1 R1) as (za & -> & ->). destruct (rep_num_inv _ _ TUInt _ _ eq_refl R2) as (zb & -> & ->). cbn [hd length].
    change (word_code WShl t t 2) with [Call (word_fun WShl t t)]. eapply call_wp; [|exact He|exact HQ]. apply shift_does; auto; apply (type_num_inv _ _ H1 T1).
  - destruct ts as [|a [|b [|]]]; try discriminate. cbn [wt_word] in Hwt. apply andb_prop in Hwt as (H1 & H3). apply andb_prop in H1 as (H1 & H2). apply widens_num in H2; auto. destruct b; try discriminate. subst.
    destruct (rep_list_2 _ _ _ _ _ _ Hr) as (x & y & w1 & w2 & -> & -> & R1 & R2). inversion Hv as [|? ? ? ? T1 Hv']; subst. inversion Hv' as [|? ? ? ? T2 _]; subst.
    destruct (rep_num_inv _ _ _ _ _ H1 R1) as (za & -> & ->). destruct (rep_num_inv _ _ TUInt _ _ eq_refl R2) as (zb & -> & ->). cbn [hd length].
    change (word_code WShr t t 2) with [Call (word_fun WShr t t)]. eapply call_wp; [|exact He|exact HQ]. apply shift_does; auto; apply (type_num_inv _ _ H1 T1).
  - destruct ts as [|a [|]]; try discriminate. cbn [wt_word] in Hwt. destruct t; try discriminate. destruct a; try discriminate.
    destruct (rep_list_1 _ _ _ _ _ Hr) as (x & -> & R). destruct (rep_num_inv _ _ TUInt _ _ eq_refl R) as (z & -> & ->). inversion Hv as [|? ? ? ? T1 _]; subst.
    change (word_code WToInt TInt (hd TNo [TUInt]) (length [TUInt])) with [Call "stdlib.to-int"]. cbn [num] in *. cbn [word_sem] in Hs. apply some_inj in Hs. subst r. eapply call_wp; [|exact He|exact HQ]. split; [arity|].
    destruct (p_to_int E HE z st T1) as (P1 & P2). rewrite u128_nws, i128_nws in * by exact T1. destruct (Z.ltb_spec z (2 ^ 127)) as [H0|H0]; [|exact (P2 H0)].
    apply (does_num E _ _ _ TInt); [reflexivity| |exact (P1 H0)]. cbn [has_type in_range] in *. unfold is_i128. lia.
  - destruct ts as [|a [|]]; try discriminate. cbn [wt_word] in Hwt. apply andb_prop in Hwt as (H1 & H2). destruct t; try discriminate. destruct a; try discriminate.
    destruct (rep_list_1 _ _ _ _ _ Hr) as (x & -> & R). destruct (rep_num_inv _ _ TInt _ _ eq_refl R) as (z & -> & ->). inversion Hv as [|? ? ? ? T1 _]; subst.
    change (word_code WToUint TUInt (hd TNo [TInt]) (length [TInt])) with [Call "stdlib.to-uint"]. cbn [num] in *. cbn [word_sem] in Hs. apply some_inj in Hs. subst r. eapply call_wp; [|exact He|exact HQ]. split; [arity|].
    destruct (p_to_uint E HE z st T1) as (P1 & P2). rewrite i128_nws in *. destruct (Z.leb_spec 0 z) as [H0|H0]; [|exact (P2 H0)].
    assert (HR : is_u128 z) by (cbn [has_type] in T1; unfold is_u128; change (2 ^ 128) with (2 * 2 ^ 127); lia). rewrite u128_nws in P1 by exact HR.
    apply (does_num E _ _ _ TUInt); [reflexivity|exact HR|exact (P1 H0)].
Qed.

Lemma word_ok G w t ss : Forall (sub_ok G) ss -> wt_word w t (map (@s_t HS) ss) = true ->
  impl G t (sfr ss) (e_word w t (hd TNo (map (@s_t HS) ss)) (map (@s_c HS) ss))
    (fun r => bind (mapM (map (fun s => s_m s r) ss)) (fun vs => unless true (fun _ => word_wrong w vs) (bind (of_opt (word_sem w vs)) of_sum))).
Proof.
  intros Hs Hwt. pose proof (sfr_nonneg _ _ _ _ _ _ Hs) as P2. split; [lia|].
  intros d B l code l' HC Hw. unfold e_word in HC. destruct (operands (map (@s_c HS) ss) d B l) as [c l1] eqn:Eo. injection HC as <- <-.
  split; [eapply operands_ext; eauto|]. intros F r js ls k st sp Q rs Hm HC HL HX HW. rewrite <- app_assoc.
  eapply (operands_run E rt L X G B r F l ls st sp (sfr ss) d Q rs HC HX ss l c l1 Eo Hs (lext_refl _ Hw) HL ls st sp 0 (moved_refl _ _ _ _ _ _ _ _ _ _ _ HC) ltac:(lia) _ _ k Hm).
  intros vs ls2 st2 sp2 ws Hr Hv HM1 HM2 Hf. unfold unless in Hf. cbn [andb] in Hf. destruct (word_wrong w vs) eqn:Hwr; [discriminate|].
  destruct (word_sem w vs) as [r0|] eqn:Hsem; [|discriminate]. cbn in Hf. rewrite !map_length.
  replace (length ss) with (length (map (@s_t HS) ss)) by apply map_length.
  eapply word_wp; [exact Hwt|exact Hr|exact Hv|exact Hsem|exact Hwr| |].
  - destruct (c_err _ _ _ _ _ _ _ _ _ _ _ HC) as (w0 & Hw0). exists w0. rewrite (m_glob _ _ _ _ _ _ _ _ HM2) by discriminate. exact Hw0.
  - destruct r0 as [v|c0]; cbn in Hf; injection Hf as <-.
    + intros ws' Hws Hty. apply (HW _ _ ls2 st2 sp2 ws' eq_refl). constructor; [eapply moved_more; [exact HM2|lia]|apply Hws|exact Hty|reflexivity].
    + intros st' Hst'. apply HX. exact Hst'.
Qed.
End Word.
