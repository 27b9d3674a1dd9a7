(** * The emitted deserialization code for lists (proof support) *)
From Coq Require Import ZArith String Ascii List Bool Lia Sorted.
Import ListNotations.
From Verif Require Import Wasm Std StdEnv WasmLogic WasmTac Spec Mem MemFacts Bytes SpecBytes SpecUtf8 Clar Rep RepFacts Emit CallProofs EmitFacts EmitProofs
  ReadProofs Equal EqualProofs Utf8Proofs Utf8Dec ConvProofs NameProofs NameSearch BeProofs SpecSer SpecSkip SkipProofs SerProofs PropSer SpecDeser Deser DeserProofs DeserSeq DeserCtl LangMem.
Open Scope string_scope.
Open Scope list_scope.
Open Scope Z_scope.

Lemma only_sym m m' a n : only_changes m m' a n -> only_changes m' m a n.
Proof. intros (H1 & H2). split; [congruence|]. intros x Hx. symmetry. apply H2. exact Hx. Qed.

Section Code.
Variable tab : list string -> Z.
Context {HS : Type} (E : env HS) (HE : has_std E).
Notation wp := (wp E).
Notation deser_right := (deser_right tab E).

(** what remains to be read *)
Definition rest_of (t : ty) (len : Z) (o : option (value * list Z)) (vs : list value) (bss : list (list Z)) : Prop :=
  match o with
  | None => True
  | Some (v, bs) => exists vr br, v = CList (vs ++ vr) /\ bs = 11 :: u32_be len ++ concat (bss ++ br) /\ Forall2 (readable t) vr br /\ zlen (vs ++ vr) = len
  end.

Lemma deser_list_ok n t : deser_right t -> deser_right (TList n t).
Proof.
  intros IH (Hn0 & Hok) l ol el rl c l' H Hw Ho He Hr D1 D2 D3. cbn [deserialize_from_memory] in H. rewrite add_one, !add_more in H. cbn [length app] in H.
  destruct (deserialize_from_memory tab t ol el rl (more l [T32; T32; T32; T32])) as [ci l5] eqn:E5. destruct (save_to_locals t l5) as [[is cs] l6] eqn:E6.
  destruct (write_to_memory t (llen l + 2) 0 l6) as [cw l7] eqn:E7.
  assert (Hc := f_equal fst H). assert (Hl' := f_equal snd H). cbn [fst snd] in Hc, Hl'. subst c l'. clear H.
  set (l4 := more l [T32; T32; T32; T32]) in *. assert (L4 : lext l l4) by (apply more_ext; auto).
  set (w := llen l) in *. set (size := get_type_size t) in *. pose proof (size_pos t Hok) as Hsz. fold size in Hsz. pose proof (room_nonneg t Hok) as Hrm.
  specialize (IH Hok _ _ _ _ _ _ E5 (lext_wf _ _ L4) (lext_live _ _ _ L4 Ho) (lext_live _ _ _ L4 He) (lext_live _ _ _ L4 Hr) D1 D2 D3).
  destruct (deser_save _ _ _ _ _ _ _ _ _ _ _ _ IH E6 (lext_live _ _ _ L4 Ho) (lext_live _ _ _ L4 Hr)) as (X1 & X2 & X3 & X4).
  assert (Leo : live l4 (w + 2)) by (apply live_new; [auto|cbn; lia]). assert (Lix : live l4 (w + 3)) by (apply live_new; [auto|cbn; lia]).
  assert (Lres : live l4 (w + 1)) by (apply live_new; [auto|cbn; lia]). assert (Llen : live l4 w) by (replace w with (w + 0)%nat by lia; apply live_new; [auto|cbn; lia]).
  assert (L6 : lext l l6) by (eapply lext_trans; eauto).
  destruct (write_memory_ok E t _ _ _ _ _ E7 (lext_wf _ _ X1) (lext_live _ _ _ X1 Leo)) as (Y1 & Y2).
  assert (Hl4 : llen l4 = (w + 4)%nat) by (unfold l4; rewrite llen_more; reflexivity). pose proof (lext_len _ _ X1) as Hl6. pose proof (lext_len _ _ Y1) as Hl7.
  split; [eapply lext_trans; eauto|]. intros js ls k st a e r K o Q Go Ge Gr Hn HA HT HK HW S F. assert (HA' := HA). destruct HA' as (A1 & A2 & A3 & A4 & A5 & A6 & A7 & A8 & A9).
  cbn [tables] in HT. change (room (TList n t)) with (n * (size + room t)) in *. assert (LTo := live_lt _ _ Ho). assert (LTe := live_lt _ _ He). assert (LTr := live_lt _ _ Hr). fold w in LTo, LTe, LTr.
  set (R := n * (size + room t)) in *.
  assert (FAIL : forall ls' m' x, o = None -> lkeep (hide [ol; rl] l) ls ls' -> nth_error ls' ol = Some (VI32 x) -> only_changes (smem st) m' r R ->
     wp js (mkcfg ls' (VI32 0 :: VI32 0 :: VI32 0 :: k) (with_mem st m')) Q).
  { intros ls' m' x Hno HKp HO HM. apply (F ls' m' [VI32 0; VI32 0]). split; [exact Hno|]. split; [exact HKp|]. split; [eauto|]. split; [exact HM|]. repeat constructor; cbn; lia. }
  assert (NEED : o = None \/ exists len, 0 <= len <= n /\ rd (smem st) a = 11 /\ holds (smem st) (a + 1) (u32_be len) /\ a + 5 <= e /\ rest_of t len o [] []).
  { destruct o as [[v bs]|]; [right|left; reflexivity]. destruct HW as (W1 & W2 & W3). destruct v as [| | | | | | | |vs| | | | |]; cbn [readable] in W1; try contradiction. destruct W1 as (W1 & bss & -> & W4).
    exists (zlen vs). pose proof (zlen_nonneg vs). split; [lia|]. split; [eapply head_tag; [exact W2|reflexivity]|]. apply holds_cons in W2 as (_ & _ & _ & _ & _ & W2). apply holds_app in W2 as (W2 & _). split; [exact W2|].
    rewrite zlen_cons, zlen_app in W3. unfold u32_be in W3. rewrite zlen_be in W3. pose proof (zlen_nonneg (concat bss)). split; [lia|]. cbn [rest_of app]. eauto 10. }
  cbn [app]. apply wp_block. wst. eapply wp_lget; [exact Go|]. apply wp_const. apply wp_add32; [lia|]. eapply wp_lget; [exact Ge|]. apply wp_r32. cbn [irel]. apply wp_if_bool; intros Hc; cbn [firstn skipn].
  { unfold none3. cbn [app]. apply wp_const. apply wp_const. apply wp_const. apply wp_br. wst. rewrite <- (with_mem_same st). eapply FAIL; [|apply lkeep_refl|exact Go|apply only_refl].
    destruct NEED as [Hno|(len & _ & _ & _ & N & _)]; [exact Hno|lia]. }
  apply wp_nil. wst. eapply wp_lget; [exact Go|]. apply wp_byte_at; [lia|lia|]. rewrite Z.add_0_r. apply wp_const. apply wp_r32. cbn [irel]. apply wp_if_bool; intros Hc2; cbn [firstn skipn].
  { unfold none3. cbn [app]. apply wp_const. apply wp_const. apply wp_const. apply wp_br. wst. rewrite <- (with_mem_same st). eapply FAIL; [|apply lkeep_refl|exact Go|apply only_refl].
    destruct NEED as [Hno|(len & _ & N & _)]; [exact Hno|]. rewrite N in Hc2. discriminate. }
  apply negb_false_iff, Z.eqb_eq in Hc2. apply wp_nil. wst. eapply wp_lget; [exact Go|]. apply wp_const. apply wp_add32; [lia|].
  destruct (len_at (smem st) (a + 1) ltac:(lia) ltac:(lia)) as (B1 & B2). set (len := be_value (bytes_at (smem st) (a + 1) 4)) in *.
  wcall HE. apply load_i32_be_wp with (n := len); [exact HE|exact B1|exact B2|]. unfold qcall. wcbn. apply wp_ltee. apply wp_const. apply wp_r32. cbn [irel]. set (ls1 := lset ls w (VI32 len)).
  assert (K1 : lkeep (hide [ol; rl] l) ls ls1) by (apply keep_new; lia). assert (G1 : nth_error ls1 ol = Some (VI32 a)) by (unfold ls1; lk).
  cbn [ty_ok] in Hn0. unfold max_value_size in Hn0.
  assert (NLEN : o = None \/ len <= n /\ rest_of t len o [] []).
  { destruct NEED as [Hno|(len' & N1 & N2 & N3 & N4 & N5)]; [auto|right]. assert (len' = len) as -> by (eapply len_unique; eauto; lia). split; [lia|exact N5]. }
  apply wp_if_bool; intros Hc3; cbn [firstn skipn].
  { unfold none3. cbn [app]. apply wp_const. apply wp_const. apply wp_const. apply wp_br. wst. rewrite <- (with_mem_same st). eapply FAIL; [|exact K1|exact G1|apply only_refl].
    destruct NLEN as [Hno|(N & _)]; [exact Hno|lia]. }
  assert (Hlen : 0 <= len <= n) by lia. assert (REST : rest_of t len o [] []) by (destruct NLEN as [-> |(_ & N)]; [exact I|exact N]). clear NLEN NEED.
  assert (HLR : len * (size + room t) <= R) by (unfold R; clear - Hlen Hsz Hrm; nia). assert (HLS : 0 <= len * size) by (clear - Hlen Hsz; nia).
  assert (HLS2 : len * size + len * room t <= R) by (clear - HLR; nia). assert (HLM : 0 <= len * room t) by (clear - Hlen Hrm; nia).
  apply wp_nil. wst. eapply wp_lget; [unfold ls1; lk|]. apply wp_ltee. apply wp_ltee. eapply wp_lget; [unfold ls1; lk|]. apply wp_const. eapply wp_b32; [reflexivity|]. rewrite (Z.mod_small (len * size)) by lia.
  apply wp_add32; [lia|]. apply wp_lset. set (ls2 := lset (lset (lset ls1 (w + 1) _) (w + 2) _) rl _).
  assert (K2 : lkeep (hide [ol; rl] l) ls ls2) by (unfold ls2; do 3 (apply keep_new2; [lia|]); exact K1).
  rewrite <- ?app_assoc. eapply wp_bump with (a := a); [unfold ls2, ls1; lk|lia|]. cbn [app]. apply wp_const. apply wp_lset. set (ls3 := lset (lset ls2 ol _) (w + 3) _).
  assert (K3 : lkeep (hide [ol; rl] l) ls ls3) by (unfold ls3; do 2 (apply keep_new2; [lia|]); exact K2).
  assert (G3 : nth_error ls3 ol = Some (VI32 (a + 5)) /\ nth_error ls3 rl = Some (VI32 (r + len * size)) /\ nth_error ls3 el = Some (VI32 e) /\ nth_error ls3 w = Some (VI32 len) /\
     nth_error ls3 (w + 1) = Some (VI32 r) /\ nth_error ls3 (w + 2) = Some (VI32 r) /\ nth_error ls3 (w + 3) = Some (VI32 0)).
  { unfold ls3, ls2, ls1. split; [lk|]. split; [lk|]. split; [lk|]. split; [lk|]. split; [lk|]. split; lk. }
  clearbody ls3. clear ls2 K2 ls1 K1 G1. destruct G3 as (G1 & G2 & G3 & G4 & G5 & G6 & G7).
  set (P := fun cur p rc x => a <= x < cur \/ r <= x < r + p * size \/ r + len * size <= x < rc).
  eapply wp_loop0 with (z := len) (I := fun z s =>
    exists lz mz vs bss cur rc, s = mkcfg lz [] (with_mem st mz) /\ lkeep (hide [ol; rl] l) ls lz /\ zlen vs = len - z /\ 0 <= z <= len /\
      cur = a + 5 + zlen (concat bss) /\ cur <= e /\ Forall2 (readable t) vs bss /\ holds (smem st) (a + 5) (concat bss) /\ rest_of t len o vs bss /\
      r + len * size <= rc <= r + len * size + zlen vs * room t /\ only_changes (smem st) mz r (rc - r) /\ rep_elems mz (P cur (zlen vs) rc) t vs r /\
      nth_error lz ol = Some (VI32 cur) /\ nth_error lz rl = Some (VI32 rc) /\ nth_error lz el = Some (VI32 e) /\ nth_error lz w = Some (VI32 len) /\
      nth_error lz (w + 1) = Some (VI32 r) /\ nth_error lz (w + 2) = Some (VI32 (r + zlen vs * size)) /\ nth_error lz (w + 3) = Some (VI32 (zlen vs))).
  - lia.
  - exists ls3, (smem st), [], [], (a + 5), (r + len * size). rewrite with_mem_same. change (zlen (@nil value)) with 0. change (zlen (concat (@nil (list Z)))) with 0. cbn [concat].
    split; [reflexivity|]. split; [exact K3|]. split; [lia|]. split; [lia|]. split; [lia|]. split; [lia|]. split; [constructor|]. split; [apply holds_at with (n := 0); lia|]. split; [exact REST|].
    split; [lia|]. split; [apply only_refl|]. split; [exact I|]. rewrite Z.mul_0_l, Z.add_0_r. split; [exact G1|]. split; [exact G2|]. split; [exact G3|]. split; [exact G4|]. split; [exact G5|]. split; [exact G6|exact G7].
  - intros z lz st' Hz (lz' & mz & vs & bss & cur & rc & EQ & Kz & Hp & Hzl & Hcur & Hcure & FR & HH & RS & Hrc & OM & RE & I1 & I2 & I3 & I4 & I5 & I6 & I7).
    apply cfg_inj in EQ. destruct EQ as (<- & ->). set (p := zlen vs) in *. pose proof (zlen_nonneg vs) as Hp0. fold p in Hp0. assert (Lz : length lz = length ls) by exact (lkeep_len _ _ _ Kz).
    pose proof (zlen_nonneg (concat bss)) as Hcb.
    cbn [app]. eapply wp_lget; [exact I7|]. eapply wp_lget; [exact I4|]. apply wp_r32. cbn [irel]. apply wp_if_bool; intros Hc4; cbn [firstn skipn].
    + assert (p = len) as Hpl by lia. apply wp_const. eapply wp_lget; [exact I5|]. eapply wp_lget; [exact I4|]. apply wp_const. eapply wp_b32; [reflexivity|]. rewrite (Z.mod_small (len * size)) by lia.
      apply wp_br. wst. clear F FAIL.
      assert (HZ : zlen (11 :: u32_be len ++ concat bss) = 5 + zlen (concat bss)) by (rewrite zlen_cons, zlen_app; unfold u32_be; rewrite zlen_be; lia).
      apply (S lz mz (CList vs) (11 :: u32_be len ++ concat bss) [VI32 r; VI32 (len * size)] rc). unfold succeeded. rewrite HZ.
      split; [exact Kz|]. split; [rewrite I1; do 2 f_equal; lia|]. split; [exact I2|]. split; [rewrite Hpl in Hrc; lia|]. split; [exact OM|].
      split. { cbn [readable]. fold p. split; [lia|]. exists bss. fold p. rewrite Hpl. split; [reflexivity|exact FR]. }
      split. { apply holds_push; [exact A1|exact Hc2|]. apply holds_app. split; [exact B2|]. unfold u32_be. rewrite len_be_bytes. replace (a + 1 + Z.of_nat 4) with (a + 5) by lia. exact HH. }
      split; [lia|]. split.
      { destruct o as [[v bs]|]; [|exact I]. destruct RS as (vr & br & -> & -> & RS1 & RS2). assert (vr = []) as ->. { rewrite zlen_app in RS2. fold p in RS2. destruct vr; [reflexivity|rewrite zlen_cons in RS2; pose proof (zlen_nonneg vr); lia]. }
        inversion RS1; subst. rewrite !app_nil_r. split; reflexivity. }
      assert (HPL : Z.of_nat (length vs) = len) by exact Hpl.
      cbn [rep]. exists r. rewrite words_size_ty. fold size. rewrite HPL. split; [reflexivity|]. split; [lia|]. split; [lia|]. rewrite (only_size _ _ _ _ OM). split; [lia|]. split; [intros x Hx; lia|].
      eapply rep_elems_frame in RE; [unfold rep_elems in RE; rewrite words_size_ty in RE; exact RE|reflexivity|reflexivity| |].
      { unfold P. intros x Hx. rewrite Hpl in Hx. lia. }
      { rewrite words_size_ty. fold size. rewrite HPL. unfold P. intros x Hx. rewrite Hpl. lia. }
    + assert (Hpn : p < len) by lia. apply wp_nil. wst.
      assert (Hpr : 0 <= p * room t /\ p * room t + room t <= len * room t /\ 0 <= p * size /\ p * size + size <= len * size) by (clear - Hpn Hp0 Hrm Hsz; nia). destruct Hpr as (Q1 & Q2 & Q3 & Q4).
      assert (HSz := only_size _ _ _ _ OM).
      assert (WI : exists o', want t mz cur e o' /\ (o' = None -> o = None) /\ forall v b, readable t v b -> agrees o' v b -> rest_of t len o (vs ++ [v]) (bss ++ [b])).
      { destruct o as [[v0 bs0]|]; [|exists None; split; [left; destruct HW as [HW|(? & [] & _)]; exact HW|]; split; [auto|]; intros; exact I]. destruct HW as (W1 & W2 & W3). destruct RS as (vr & br & -> & -> & RS1 & RS2).
        destruct vr as [|v vr]; [rewrite app_nil_r in RS2; fold p in RS2; lia|]. inversion RS1 as [|? b ? br' RB RS3]; subst.
        exists (Some (v, b)). apply holds_cons in W2 as (_ & _ & _ & _ & _ & W2). apply holds_app in W2 as (_ & W2). unfold u32_be in W2. rewrite len_be_bytes in W2. replace (a + 1 + Z.of_nat 4) with (a + 5) in W2 by lia.
        rewrite concat_app in W2, W3. cbn [concat] in W2, W3. apply holds_app in W2 as (_ & W2). apply holds_app in W2 as (W2 & _). rewrite zlen_cons, !zlen_app in W3. unfold u32_be in W3. rewrite zlen_be in W3.
        pose proof (zlen_nonneg (concat br')). split.
        { split; [exact RB|]. split; [|lia]. eapply only_holds; [exact OM| |unfold zlen; exact W2]. unfold zlen in *. lia. }
        split; [congruence|]. intros v' b' _ (-> & ->). exists vr, br'. rewrite <- !app_assoc. cbn [app]. split; [reflexivity|]. split; [reflexivity|]. split; [exact RS3|exact RS2]. }
      destruct WI as (o' & O1 & O2 & O3).
      eapply X4 with (a := cur) (e := e) (r := rc) (K := K) (o := o'); [exact I1|exact I3|exact I2|lia| | | |exact O1| |]; cbn [smem with_mem].
      { eapply area_sub2 with (a := a) (r := r) (n := R); [unfold area; rewrite HSz; lia|lia|lia|lia|lia]. }
      { eapply only_tables; [exact OM| |exact HT]. eapply off_sub; [exact HK|lia|lia]. }
      { eapply off_sub; [exact HK|lia|lia]. }
      * intros lz1 m1 v b ws rc1 (S1 & S2 & S3 & S4 & S5 & S6 & S7 & S8 & S9 & S10) V. rewrite with_mem_twice.
        assert (HS1 := only_size _ _ _ _ S5). pose proof (zlen_nonneg b) as Hb0.
        assert (S1g : forall i, live l4 i -> i <> ol -> i <> rl -> nth_error lz1 i = nth_error lz i). { intros i Li Na Nb. apply (lkeep_get _ _ _ _ S1). apply live_hide. split; [exact Li|]. cbn. intuition congruence. }
        assert (Lz1 : length lz1 = length ls) by (rewrite (lkeep_len _ _ _ S1); exact Lz).
        eapply wp_lgets; [exact V|]. eapply (Y2 _ _ _ _ (r + p * size)); [rewrite S1g by (try lia; exact Leo); exact I6|lia|exact (rep_typed _ _ _ _ _ S10)|lia|lia|cbn [smem with_mem]; fold size; lia|].
        intros lz2 m2 K2 M2 W2. cbn [smem with_mem] in M2, W2. rewrite with_mem_twice. rewrite Z.add_0_r in M2, W2. fold size in M2. assert (HS2 := only_size _ _ _ _ M2).
        assert (K2g : forall i, live l4 i -> nth_error lz2 i = nth_error lz1 i) by (intros i Li; apply (lkeep_get _ _ _ _ K2); eapply lext_live; [exact X1|exact Li]).
        assert (Lz2 : length lz2 = length ls) by (rewrite (lkeep_len _ _ _ K2); exact Lz1).
        eapply wp_bump with (a := r + p * size); [rewrite K2g, S1g by (try lia; exact Leo); exact I6|lia|].
        assert (J7 : nth_error lz2 (w + 3) = Some (VI32 p)) by (rewrite K2g, S1g by (try lia; exact Lix); exact I7).
        eapply wp_bump with (a := p); [lk|lia|]. apply wp_br. wst. exists (z - 1). split; [lia|].
        match goal with |- exists lz mz vs bss cur rc, mkcfg ?x _ _ = _ /\ _ => set (lz3 := x) end.
        exists lz3, m2, (vs ++ [v]), (bss ++ [b]), (cur + zlen b), rc1. rewrite zlen_app, concat_app, zlen_app. cbn [concat]. rewrite app_nil_r. fold p. change (zlen [v]) with 1.
        split; [reflexivity|]. split.
        { unfold lz3. do 2 (apply keep_new2; [lia|]). eapply lkeep_trans0; [exact Kz|]. eapply lkeep_trans0; [eapply lkeep_hide2; [exact L4| |exact S1]; auto|]. eapply lkeep_hide; [exact L6|exact K2]. }
        split; [lia|]. split; [lia|]. split; [lia|]. split; [lia|].
        assert (HHb : holds (smem st) cur b).
        { eapply only_holds; [apply only_sym; exact OM| |exact S7]. unfold zlen in *. lia. }
        split; [apply Forall2_app; [exact FR|constructor; [exact S6|constructor]]|]. split; [apply holds_app; split; [exact HH|]; replace (a + 5 + Z.of_nat (length (concat bss))) with cur by (unfold zlen in Hcur; lia); exact HHb|].
        split; [apply O3; [exact S6|exact S9]|]. split; [lia|].
        split. { eapply only_trans; [eapply only_weaken; [exact OM|lia|lia]|]. eapply only_trans; [eapply only_weaken; [exact S5|lia|lia]|]. eapply only_weaken; [exact M2|lia|lia]. }
        assert (DIS : forall x, P cur p rc x -> rd m2 x = rd mz x).
        { intros x Hx. unfold P in Hx. rewrite (proj2 M2) by lia. apply (proj2 S5). lia. }
        split.
        { apply elems_app.
          - eapply (rep_elems_frame mz); [congruence|exact DIS| | |exact RE]; [unfold P; intros x Hx; lia|]. rewrite words_size_ty. fold size. change (Z.of_nat (length vs)) with p. unfold P. intros x Hx. lia.
          - cbn [rep_elems]. split; [|exact I]. exists (blank t ws). change (Z.of_nat (length vs)) with p. fold size. split; [exact W2|]. apply blank_rep.
            eapply (rep_frame m1); [exact HS2| | |exact S10]; cbv beta; [intros x Hx; apply (proj2 M2); lia|unfold P; intros x Hx; lia]. }
        assert (NE : (w + 2 <> w + 3)%nat) by lia. unfold lz3.
        split; [rewrite !lset_other by lia; rewrite K2g by (eapply lext_live; [exact L4|exact Ho]); exact S2|].
        split; [rewrite !lset_other by lia; rewrite K2g by (eapply lext_live; [exact L4|exact Hr]); exact S3|].
        split; [rewrite !lset_other by lia; rewrite K2g, S1g by (first [congruence|eapply lext_live; [exact L4|exact He]]); exact I3|].
        split; [rewrite !lset_other by lia; rewrite K2g, S1g by (try lia; exact Llen); exact I4|].
        split; [rewrite !lset_other by lia; rewrite K2g, S1g by (try lia; exact Lres); exact I5|].
        split; [rewrite lset_other by lia; rewrite lset_same by lia; do 2 f_equal; lia|]. rewrite lset_same by (rewrite lset_len; lia). reflexivity.
      * intros lz1 m1 ws (S1 & S2 & (x & S3) & S4 & S5). unfold none3. cbn [app]. apply wp_const. apply wp_const. apply wp_const. apply wp_br. wst. rewrite with_mem_twice.
        eapply FAIL; [auto| |exact S3|]. { eapply lkeep_trans0; [exact Kz|]; eapply lkeep_hide2; [exact L4| |exact S2]; auto. }
        eapply only_trans; [eapply only_weaken; [exact OM|lia|lia]|]. eapply only_weaken; [exact S4|lia|lia].
Qed.
End Code.
